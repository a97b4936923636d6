(** Property C148: directory listings in small pages (xdvdfs-fsd/src/img_fs.rs:333-420). *)
From Verif Require Import M_Base M_Util M_Layout M_Read M_Img M_Check M_Remap M_Cli M_Fuse.
From Verif Require Import S_Avl S_Codec S_Read S_Img S_Check S_Cli S_Fuse S_Pages.
From Verif Require Import P_Vm P_Base P_Src P_More P_Fuse P_Pages.
From Coq Require Import Init.Byte Permutation Strings.String.
From Coq Require Import List.
Local Close Scope string_scope.
Local Open Scope N_scope.

(** C148, partial: a listing read to its end in pages with room for at least one record
    each is complete, ... Missing: that the first requests are answered. *)
Theorem c148_pages_partial :
  forall m t img fs segs ino fs' cs l fs2, source t -> packs m t img -> mounted img fs -> found_at fs segs ino fs' ->
  Forall component segs -> selected t segs (FDir cs) -> reads_pages ino fs' 0 l fs2 ->
  exists rest, map shown l = dots ++ rest /\ Permutation rest (map child_shown cs).
Proof. exact c148_packed. Qed.
Print Assumptions c148_pages_partial.
(** ... and they are answered exactly if there is room for both of the dot entries (for
    the second one, if the listing continues after the first); otherwise, the request
    fails with EIO. *)
Theorem c148_answered :
  forall m t img fs segs ino fs' cs offset full, source t -> packs m t img -> mounted img fs -> found_at fs segs ino fs' ->
  Forall component segs -> selected t segs (FDir cs) ->
  exists n, forall fuel, (n <= fuel)%nat ->
    (dots_fit ino offset full /\ exists fs2 l, fuse_readdir fuel fs' ino offset full = (fs2, Ok l))
    \/ (~ dots_fit ino offset full /\ fuse_readdir fuel fs' ino offset full = (fs', Err EIO)).
Proof. exact c148_answers. Qed.
Print Assumptions c148_answered.

Definition c148_tree : ftree := FDir [(text "a", FFile [x01]); (text "b", FDir [])].
Definition c148_img : list byte := fst (fst (create_xdvdfs_image 10 Debug file_wdev (std_fs c148_tree) ([], []))).
Definition c148_start : mount := fresh c148_img.
Definition single : list rdent -> rdent -> bool := fun l _ => (1 <=? len l).
Example c148_example :
  source c148_tree /\ packs Debug c148_tree c148_img /\ mounted c148_img c148_start /\ holds_one single
  /\ dots_fit 1 2 single /\ dots_fit 1 1 single /\ ~ dots_fit 1 0 single
  /\ snd (fuse_readdir 20 c148_start 1 1 single) = Ok [mkRdent 1 2 true (text "..")]
  /\ snd (fuse_readdir 20 c148_start 1 2 single) = Ok [mkRdent 2 3 false (text "a")]
  /\ snd (fuse_readdir 20 c148_start 1 3 single) = Ok [mkRdent 2 4 true (text "b")]
  /\ snd (fuse_readdir 20 c148_start 1 4 single) = Ok [].
Proof.
  assert (S : source c148_tree) by (apply source_b_ok; vm_compute; reflexivity). split; [exact S|].
  split; [apply (std_packs Debug c148_tree 10 []); [exact S|vm_compute; reflexivity]|].
  split; [apply fresh_mounted; vm_compute; reflexivity|]. split; [intros x; reflexivity|].
  split; [split; discriminate|]. split; [split; [discriminate|reflexivity]|].
  split; [intros (A & _); destruct (A eq_refl) as (_ & B); discriminate B|]. vm_all.
Qed.

(** Finding: with room for one record, the listing cannot even be started. *)
Theorem c148_answered_refuted :
  exists m t img fs full, source t /\ packs m t img /\ mounted img fs /\ holds_one full
    /\ forall fuel, fuse_readdir fuel fs 1 0 full = (fs, Err EIO).
Proof.
  exists Debug, c148_tree, c148_img, c148_start, single. destruct c148_example as (S & P & M & O & _).
  split; [exact S|]. split; [exact P|]. split; [exact M|]. split; [exact O|].
  intros fuel. unfold fuse_readdir.
  assert (E : (match eio (scan_dirent_tree (m_dev c148_start) (m_root c148_start)) with Ok _ => true | _ => false end) = true) by (vm_compute; reflexivity).
  change (dirtab_by_inode c148_start 1) with (Some (m_root c148_start)). cbv beta iota.
  destruct (eio (scan_dirent_tree (m_dev c148_start) (m_root c148_start))); try discriminate E. reflexivity.
Qed.
Print Assumptions c148_answered_refuted.
