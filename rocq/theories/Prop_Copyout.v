(** Properties C116 and C117: unpack and copy-out in full (cmd_unpack.rs). For every
    entry, [dup] says whether the handle of the image can be duplicated; if it cannot,
    the file is copied the slow way. *)
From Verif Require Import M_Base M_Util M_Layout M_Read M_Img M_Remap M_Cli M_Unpack M_Exiso M_Host M_Extract M_Copyout.
From Verif Require Import S_Avl S_Codec S_Read S_Img S_Check S_Cli S_Unpack S_Exiso S_Fault S_Extract S_Copyout.
From Verif Require Import P_Vm.
From Verif Require Import P_Base P_Witness P_More P_Src P_Cli P_Host P_Unpack P_Exiso P_Extract P_Copyout.
From Coq Require Import Init.Byte Strings.String.
From Coq Require Import List.
Local Close Scope string_scope.
Local Open Scope N_scope.

(** C116: for all images, also untrusted ones, whose data is all there, it makes no
    difference which files are copied the slow way, whatever fails. *)
Theorem c116_same_result :
  forall fuel dup cwd s dest w ip file, no_dotdot dest -> lists_harmless fuel file -> all_there fuel file -> canonicalize (w_fs w) cwd s = Ok ip -> w_fs w ip = Some (HFile file) ->
  ~ strictly_below (place cwd dest) ip -> unpack_dup fuel dup cwd s (Some dest) w = cmd_unpack fuel cwd s file (Some dest) w.
Proof. exact c116_same_lemma. Qed.
Print Assumptions c116_same_result.
(** If data is missing, a success still means the same result as without the slow way;
    and if all files are copied the slow way, a success means that no data is missing
    (compare C49). *)
Theorem c116_success :
  forall fuel dup cwd s dest w w' ip file, no_dotdot dest -> lists_harmless fuel file -> canonicalize (w_fs w) cwd s = Ok ip -> w_fs w ip = Some (HFile file) ->
  ~ strictly_below (place cwd dest) ip -> unpack_dup fuel dup cwd s (Some dest) w = (w', Ok tt) ->
  cmd_unpack fuel cwd s file (Some dest) w = (w', Ok tt) /\ ((forall i, dup i = false) -> all_there fuel file).
Proof. exact c116_success_lemma. Qed.
Print Assumptions c116_success.
(** Unpacking into a free place restores the tree in any case. *)
Theorem c116_restores :
  forall dup cwd s dest w ip file t, canonicalize (w_fs w) cwd s = Ok ip -> w_fs w ip = Some (HFile file) -> is_image file t -> unix_tree t -> ready_for cwd dest t w ->
  exists w', returns (fun fuel => unpack_dup fuel dup cwd s (Some dest) w) (w', Ok tt) /\ restored (place cwd dest) t (w_fs w) (w_fs w') /\ w_fs w' ip = Some (HFile file).
Proof. exact c116_packed_lemma. Qed.
Print Assumptions c116_restores.

(** An image with the files "i" ("hi") and "z" ("yo"), and the same without its last byte. *)
Definition c116_img : list byte :=
  image_of (record 0 4 34 2 32 [x69] ++ record 0 0 35 2 32 [x7a]) ([x68; x69] ++ fill 2046 x00 ++ [x79; x6f]).
Definition c116_world (img : list byte) : world := mkWorld (hset (w_fs (bare [[]])) [text "i"] (HFile img)) None.
Definition c116_run (dup : nat -> bool) (img : list byte) := unpack_dup 20 dup [] (text "i") (Some (text "o")) (c116_world img).
Definition c116_files (w : world) := map (w_fs w) [[text "o"; text "i"]; [text "o"; text "z"]].
Example c116_example :
  (let r := c116_run (fun k => Nat.eqb k 1) c116_img in snd r = Ok tt /\ c116_files (fst r) = [Some (HFile [x68; x69]); Some (HFile [x79; x6f])])
  /\ (let img := removelast c116_img in let r := c116_run (fun _ => true) img in snd r = Ok tt /\ c116_files (fst r) = [Some (HFile [x68; x69]); Some (HFile [x79])])
  /\ (let img := removelast c116_img in let r := c116_run (fun _ => false) img in snd r = Err (URead (IOError UnexpectedEof)) /\ c116_files (fst r) = [Some (HFile [x68; x69]); Some (HFile [])]).
Proof. cbv zeta. ssplit; vm_compute; reflexivity. Qed.

(** C117: copy-out gives what is selected (C70), however files are copied, for an image
    in a file of the host, and changes nothing else; in particular not the image. *)
Theorem c117_directory :
  forall dup cwd s ip file src dest t cs w, canonicalize (w_fs w) cwd s = Ok ip -> w_fs w ip = Some (HFile file) -> is_image file t -> unix_tree t -> selects_dir t src cs -> ready_for cwd dest (FDir cs) w ->
  exists w', returns (fun fuel => copyout_dup fuel dup cwd s src dest w) (w', Ok tt)
    /\ restored (place cwd dest) (FDir cs) (w_fs w) (w_fs w').
Proof. exact c117_dir_lemma. Qed.
Print Assumptions c117_directory.
Theorem c117_file :
  forall dup cwd s ip file src dest t n b w, canonicalize (w_fs w) cwd s = Ok ip -> w_fs w ip = Some (HFile file) -> clear_of cwd dest ip -> is_image file t -> selects t src n (FFile b) -> ready_for_file cwd dest w ->
  exists w', returns (fun fuel => copyout_dup fuel dup cwd s src dest w) (w', Ok tt)
    /\ forall q, w_fs w' q = if hpath_eqb q (place cwd dest) then Some (HFile b) else w_fs w q.
Proof. exact c117_file_lemma. Qed.
Print Assumptions c117_file.
(** C117, partial: an image that is neither the destination nor in it is kept, for all
    images and whatever fails, and the result is that of M_Unpack.v, unless a file could
    not be read the slow way. Missing: images at the destination or in it; destinations
    and names that contain "..". *)
Theorem c117_image_kept_partial :
  forall fuel dup cwd s src dest w ip file, no_dotdot dest -> selects_harmless fuel file src -> canonicalize (w_fs w) cwd s = Ok ip -> w_fs w ip = Some (HFile file) ->
  clear_of cwd dest ip ->
  let R := copyout_dup fuel dup cwd s src dest w in
  w_fs (fst R) ip = Some (HFile file) /\ (R = cmd_copyout fuel cwd file src dest w \/ exists e, (exists i, dup i = false) /\ snd R = Err (URead e)).
Proof. exact copyout_cases. Qed.
Print Assumptions c117_image_kept_partial.

Example c117_example :
  let r := copyout_dup 20 (fun _ => false) [] (text "i") (text "/Z") (text "o") (c116_world c116_img) in
  snd r = Ok tt /\ w_fs (fst r) [text "o"] = Some (HFile [x79; x6f]) /\ len (image_now [text "i"] (fst r)) = len c116_img.
Proof. cbv zeta. vm_all. Qed.
(** Finding: a file that is copied out over the image it is in destroys the image; the
    file is lost too, and success is reported. *)
Theorem c117_image_kept_refuted :
  exists fuel dup cwd s src dest w, w_fs w [text "i"] = Some (HFile c116_img)
    /\ (let r := copyout_dup fuel dup cwd s src (text "o") w in snd r = Ok tt /\ w_fs (fst r) [text "o"] = Some (HFile [x68; x69]))
    /\ (let r := copyout_dup fuel dup cwd s src dest w in snd r = Ok tt /\ w_fs (fst r) [text "i"] = Some (HFile [])).
Proof. exists 20%nat, (fun _ => true), [], (text "i"), (text "/i"), (text "i"), (c116_world c116_img). cbv zeta. split; [reflexivity|]. ssplit; vm_compute; reflexivity. Qed.
Print Assumptions c117_image_kept_refuted.

(** C99 for these commands: a success means that no call has failed. *)
Theorem c99_unpack_slow : forall fuel dup cwd s target, honest (unpack_dup fuel dup cwd s target).
Proof. exact honest_unpack_dup. Qed.
Print Assumptions c99_unpack_slow.
Theorem c99_copyout_slow : forall fuel dup cwd s src dest, honest (copyout_dup fuel dup cwd s src dest).
Proof. exact honest_copyout_dup. Qed.
Print Assumptions c99_copyout_slow.
