(** Property C99: failures of the host are not hidden. *)
From Verif Require Import M_Base M_Util M_Layout M_Read M_Img M_Dev M_Xfs M_Remap M_Cli M_Unpack M_Exiso M_Stdfs M_Build M_Web M_Host.
From Verif Require Import S_Avl S_Codec S_Read S_Img S_Check S_Cli S_Unpack S_Fault.
From Verif Require Import P_Base P_Witness P_More P_Src P_Host P_Unpack P_Fault.
From Verif Require Import P_Vm.
From Verif Require Import M_Host.
From Coq Require Import Init.Byte Strings.String.
From Coq Require Import List.
Local Close Scope string_scope.
Local Open Scope N_scope.

(** C99: if unpack reports success then the tree has been restored, whatever calls
    may have failed. [unfailing w] is the same host without failures. *)
Theorem c99_unpack_complete :
  forall fuel cwd image_path file dest t w w', is_image file t -> unix_tree t -> ready_for cwd dest t (unfailing w) ->
  cmd_unpack fuel cwd image_path file (Some dest) w = (w', Ok tt) -> restored (place cwd dest) t (w_fs w) (w_fs w').
Proof. exact complete_unpack. Qed.
Print Assumptions c99_unpack_complete.

(** In general: a command that reports success has done what it does when nothing
    fails. [honest f]: if [f w = (w', Ok a)] then [f (unfailing w) = (unfailing w', Ok a)]. *)
Theorem c99_unpack : forall fuel cwd image_path file target, honest (cmd_unpack fuel cwd image_path file target).
Proof. exact honest_unpack. Qed.
Print Assumptions c99_unpack.
Theorem c99_copyout : forall fuel cwd file src dest, honest (cmd_copyout fuel cwd file src dest).
Proof. exact honest_copyout_cmd. Qed.
Print Assumptions c99_copyout.
Theorem c99_pack : forall cwd pk source image, honest (cmd_pack cwd pk source image).
Proof. exact honest_pack. Qed.
Print Assumptions c99_pack.
Theorem c99_exiso_create : forall cwd pk dir file rest, honest (exiso_create cwd pk dir file rest).
Proof. exact honest_create. Qed.
Print Assumptions c99_exiso_create.
Theorem c99_exiso_rewrite : forall cwd pk directory delete xs, honest (exiso_repack cwd pk directory delete xs).
Proof. exact honest_repack. Qed.
Print Assumptions c99_exiso_rewrite.
Theorem c99_build_image : forall (O : Type) toml mk pk cwd a, honest (@build_image O toml mk pk cwd a).
Proof. exact @honest_build. Qed.
Print Assumptions c99_build_image.
Theorem c99_browser_unpack :
  forall fuel accepts file dest w w' evs, web_unpack fuel accepts file dest w = (w', evs, Ok tt) ->
  web_unpack fuel accepts file dest (unfailing w) = (unfailing w', evs, Ok tt).
Proof. exact honest_web. Qed.
Print Assumptions c99_browser_unpack.

(** out/a ("hi") needs four units of work: with three, half of the file is written
    and unpack fails. *)
Definition c99_image : list byte := fst (fst (create_xdvdfs_image 10 Debug file_wdev (std_fs (FDir [(text "a", FFile [x68; x69])])) ([], []))).
Definition c99_run (k : N) := cmd_unpack 20 [] (text "i") c99_image (Some (text "out")) (mkWorld (w_fs (bare [[]])) (Some k)).
Example c99_cases :
  (snd (c99_run 4), w_fs (fst (c99_run 4)) [text "out"; text "a"]) = (Ok tt, Some (HFile [x68; x69]))
  /\ (snd (c99_run 3), w_fs (fst (c99_run 3)) [text "out"; text "a"]) = (Err (UHost HFault), Some (HFile [x68]))
  /\ snd (c99_run 0) = Err (UHost HFault).
Proof. vm_all. Qed.
