(** Property C169: unpacking in the browser while calls of the browser fail (xdvdfs-web
    ops/browser.rs). *)
From Verif Require Import M_Base M_Util M_Layout M_Read M_Img M_Dev M_Cli M_Unpack M_Host M_Web M_Trouble.
From Verif Require Import S_Read S_Img S_Cli S_Unpack S_Flaky S_Trouble.
From Verif Require Import P_Vm P_Witness P_Src P_More P_Cli P_Flaky P_Trouble.
From Coq Require Import Init.Byte Strings.String.
From Coq Require Import List.
Local Close Scope string_scope.
Local Open Scope N_scope.

(** C169, partial: whatever fails, unpacking does what it does without failures, or it
    reports an error after some of the messages. Missing: files with several volumes,
    where a read that fails may lead to another volume. *)
Theorem c169_same_or_error_partial :
  forall U fuel accepts file dest w, only_fails U file -> one_partition file ->
  same_or_stopped (br_unpack U fuel accepts file dest w) (web_unpack fuel accepts file dest w).
Proof. exact c169_lemma. Qed.
Print Assumptions c169_same_or_error_partial.

(** In particular, success means that nothing has failed (with the same restriction). *)
Theorem c169_success_partial :
  forall U fuel accepts file dest w w' evs u, only_fails U file -> one_partition file ->
  br_unpack U fuel accepts file dest w = (w', evs, Ok u) -> web_unpack fuel accepts file dest w = (w', evs, Ok u).
Proof. exact c169_success_lemma. Qed.
Print Assumptions c169_success_partial.

(** Afterwards, successful or not, every path is as before or has the entry of the image
    there, whole, or a new file that is empty (with the same restriction). *)
Theorem c169_pieces_partial :
  forall U fuel accepts file dest t w, only_fails U file -> one_partition file -> is_image file t ->
  partly dest t (w_fs w) (w_fs (fst (fst (br_unpack U fuel accepts file dest w)))).
Proof. exact c169_pieces_lemma. Qed.
Print Assumptions c169_pieces_partial.

(** Without failures this is the model of C96. *)
Theorem c169_untroubled :
  forall U fuel accepts file dest w, no_trouble U file -> br_unpack U fuel accepts file dest w = web_unpack fuel accepts file dest w.
Proof. exact c169_untroubled_lemma. Qed.
Print Assumptions c169_untroubled.

(** a ("hi"), S/c ("x"); the [k]th call fails, and all reads after [r] calls. *)
Definition c169_tree : ftree := FDir [(text "a", FFile [x68; x69]); (text "S", FDir [(text "c", FFile [x78])])].
Definition c169_img : list byte := fst (fst (create_xdvdfs_image 10 Debug file_wdev (std_fs c169_tree) ([], []))).
Definition c169_trouble (k r : nat) : trouble :=
  mkTrouble (fun n => negb (Nat.eqb n k)) (fun n => if Nat.leb r n then fun _ _ => Err (IoOther 1) else file_dev c169_img).
Definition c169_run (k r : nat) := br_unpack (c169_trouble k r) 20 (fun _ => true) c169_img [text "d"] (mkWorld (fun q => if hpath_eqb q [text "d"] then Some HDir else None) None).
Definition c169_files (k r : nat) : list (option hnode) :=
  map (w_fs (fst (fst (c169_run k r)))) [[text "d"; text "a"]; [text "d"; text "S"]; [text "d"; text "S"; text "c"]].
Example c169_image : is_image c169_img c169_tree.
Proof.
  assert (S : source c169_tree) by (apply source_b_ok; vm_compute; reflexivity).
  apply (packed_is_image Debug); [exact S|]. apply (std_packs Debug c169_tree 10 []); [exact S|vm_compute; reflexivity].
Qed.
Example c169_one : one_partition c169_img.
Proof. apply small_one. vm_compute. reflexivity. Qed.
Example c169_only k r : only_fails (c169_trouble k r) c169_img.
Proof. intros n o l. cbn [c169_trouble u_reads]. destruct (Nat.leb r n); [right; eexists; reflexivity|left; reflexivity]. Qed.
Example c169_example :
  only_fails (c169_trouble 100 100) c169_img /\ one_partition c169_img /\ is_image c169_img c169_tree
  /\ map (fun k => match snd (c169_run k 100) with Ok _ => true | _ => false end) (seq 0 12)
     = [false; false; false; false; false; false; false; false; false; false; false; true]
  /\ c169_files 100 100 = [Some (HFile [x68; x69]); Some HDir; Some (HFile [x78])]
  /\ c169_files 100 1 = [None; Some HDir; None] /\ snd (c169_run 100 1) = Err (URead (IOError (IoOther 1)))
  /\ c169_files 6 100 = [None; Some HDir; Some (HFile [x78])].
Proof. split; [apply c169_only|]. split; [exact c169_one|]. split; [exact c169_image|]. vm_all. Qed.

(** Finding: after an error there may be an empty file where the image has another one. *)
Theorem c169_only_whole_files_refuted :
  exists U fuel accepts file dest t w, only_fails U file /\ one_partition file /\ is_image file t
    /\ at_path t [text "a"] (FFile [x68; x69]) /\ w_fs w (dest ++ [text "a"]) = None
    /\ w_fs (fst (fst (br_unpack U fuel accepts file dest w))) (dest ++ [text "a"]) = Some (HFile []).
Proof.
  exists (c169_trouble 8 100), 20%nat, (fun _ => true), c169_img, [text "d"], c169_tree, (mkWorld (fun q => if hpath_eqb q [text "d"] then Some HDir else None) None).
  split; [apply c169_only|]. split; [exact c169_one|]. split; [exact c169_image|]. split; [|split].
  - eapply at_child; [left; reflexivity|apply at_here].
  - reflexivity.
  - vm_compute. reflexivity.
Qed.
Print Assumptions c169_only_whole_files_refuted.
