(** Property C155: unpacking over something that is already there (cmd_unpack.rs). *)
From Verif Require Import M_Base M_Util M_Layout M_Read M_Img M_Cli M_Host M_Unpack.
From Verif Require Import S_Avl S_Codec S_Read S_Img S_Check S_Cli S_Unpack S_Atop.
From Verif Require Import P_Vm.
From Verif Require Import P_Base P_Witness P_More P_Src P_Host P_Unpack P_Cli P_Atop Prop_Unpack.
From Coq Require Import Init.Byte Strings.String.
From Coq Require Import List.
Local Close Scope string_scope.
Local Open Scope N_scope.

(** C155, partial: if unpacking succeeds, everything in the image is there as it is in
    the image, whatever was there before and however much room was left; nothing else
    changed. Missing: directories that are already there. *)
Theorem c155_success_partial :
  forall fuel cwd ip file dest t w w', is_image file t -> unix_tree t -> no_dotdot dest ->
  cmd_unpack fuel cwd ip file (Some dest) w = (w', Ok tt) -> laid_over (place cwd dest) t (w_fs w) (w_fs w').
Proof. exact c155_lemma. Qed.
Print Assumptions c155_success_partial.

(** It succeeds if the directories have free places and files do not fall on
    directories; other files are replaced. *)
Theorem c155_over_partial :
  forall cwd ip file dest t w, is_image file t -> unix_tree t -> ready_over cwd dest t w ->
  exists w', returns (fun fuel => cmd_unpack fuel cwd ip file (Some dest) w) (w', Ok tt) /\ laid_over (place cwd dest) t (w_fs w) (w_fs w').
Proof. exact c155_when. Qed.
Print Assumptions c155_over_partial.

(** In particular, unpacking a second time to the same place never succeeds if the image
    has a directory besides the root. *)
Theorem c155_again :
  forall fuel fuel' cwd ip ip' file dest t w w' w'', is_image file t -> unix_tree t -> no_dotdot dest -> has_subdir t ->
  cmd_unpack fuel cwd ip file (Some dest) w = (w', Ok tt) -> cmd_unpack fuel' cwd ip' file (Some dest) w' <> (w'', Ok tt).
Proof. exact c155_again_lemma. Qed.
Print Assumptions c155_again.

(** The destination "out" has the files a and b already. *)
Definition c155_old : world :=
  mkWorld (hset (hset (w_fs (bare [[]; [text "out"]])) [text "out"; text "a"] (HFile [x01; x02; x03; x04; x05])) [text "out"; text "b"] (HFile [x07])) None.
Definition c155_run : world * res uerr unit := cmd_unpack 20 [] (text "i") c48_img (Some (text "out")) c155_old.
Example c155_example :
  snd c155_run = Ok tt
  /\ map (w_fs (fst c155_run)) [[text "out"; text "a"]; [text "out"; text "b"]; [text "out"; text "S"; text "D"; text "c"]; [text "out"; text "S"; text "E"]]
     = [Some (HFile [x68; x69]); Some (HFile [x07]); Some (HFile [x78]); Some HDir].
Proof. vm_all. Qed.

(** Finding: unpacking again to the place where the same image was unpacked fails at the
    first directory, and so do copy-out and extract-xiso -x, which use the same code. *)
Notation c155_first := (cmd_unpack 20 [] (text "i") c48_img (Some (text "out")) (bare [[]])).
Notation c155_twice := (cmd_unpack 20 [] (text "i") c48_img (Some (text "out")) (fst c155_first)).
Theorem c155_again_refuted :
  exists fuel cwd ip file dest w w1, cmd_unpack fuel cwd ip file (Some dest) w = (w1, Ok tt)
    /\ snd (cmd_unpack fuel cwd ip file (Some dest) w1) = Err (UHost HAlreadyExists).
Proof.
  exists 20%nat, [], (text "i"), c48_img, (text "out"), (bare [[]]), (fst c155_first). split.
  - assert (H : snd c155_first = Ok tt) by (vm_compute; reflexivity). rewrite <- H. apply surjective_pairing.
  - assert (H : snd c155_twice = Err (UHost HAlreadyExists)) by (vm_compute; reflexivity). exact H.
Qed.
Print Assumptions c155_again_refuted.
