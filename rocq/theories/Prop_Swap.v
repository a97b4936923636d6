(** Property C166: a mounted image whose file changes. [in_use fs]: an image was
    mounted, requests were answered, and the file has changed in any way in
    between; [course fs fs']: more of the same.  *)
From Verif Require Import M_Base M_Util M_Layout M_Read M_Img M_Check M_Remap M_Cli M_Fuse.
From Verif Require Import S_Avl S_Codec S_Read S_Img S_Check S_Cli S_Fuse S_Total S_Swap.
From Verif Require Import P_Vm.
From Verif Require Import P_Base P_Witness P_More P_Src P_Check P_Cli P_Fuse P_Extra P_Total P_Swap.
From Coq Require Import Init.Byte Strings.String.
From Coq Require Import List.
Local Close Scope string_scope.
Local Open Scope N_scope.

(** Two images: one with f (3 bytes), one with e and f (3 bytes each). *)
Definition c166_old : ftree := FDir [(text "f", FFile [x01; x02; x03])].
Definition c166_new : ftree := FDir [(text "e", FFile [x04; x05; x06]); (text "f", FFile [x07; x08; x09; x0a])].
Definition c166_img (t : ftree) : list byte := fst (fst (create_xdvdfs_image 10 Debug file_wdev (std_fs t) ([], []))).
Definition c166_start : mount := fresh (c166_img c166_old).
Definition c166_state : mount := after_lookup c166_start 1 (text "f").
Definition c166_changed : mount := changed c166_state (m_dev (fresh (c166_img c166_new))).
(** The computations of the examples below, at once. *)
Example c166_facts :
  snd (fuse_lookup 20 c166_start 1 (text "f")) = Ok (mkAttr 2 3 1 false)
  /\ fuse_read c166_state 2 0 3 = Ok [x01; x02; x03]
  /\ fuse_getattr c166_changed 2 = Ok (mkAttr 2 3 1 false)
  /\ fuse_read c166_changed 2 0 3 = Ok [x04; x05; x06]
  /\ snd (fuse_lookup 20 c166_changed 1 (text "e")) = Ok (mkAttr 3 3 1 false)
  /\ snd (fuse_lookup 20 c166_changed 1 (text "f")) = Err EIO
  /\ snd (fuse_lookup 20 (fresh (c166_img c166_new)) 1 (text "f")) = Ok (mkAttr 2 4 1 false).
Proof. vm_all. Qed.
Example c166_images : source c166_old /\ packs Debug c166_old (c166_img c166_old) /\ source c166_new /\ packs Debug c166_new (c166_img c166_new)
  /\ mounted (c166_img c166_old) c166_start /\ mounted (c166_img c166_new) (fresh (c166_img c166_new)).
Proof.
  assert (S : source c166_old) by (apply source_b_ok; vm_compute; reflexivity).
  assert (S' : source c166_new) by (apply source_b_ok; vm_compute; reflexivity).
  split; [exact S|]. split; [apply (std_packs Debug c166_old 10 []); [exact S|vm_compute; reflexivity]|].
  split; [exact S'|]. split; [apply (std_packs Debug c166_new 10 []); [exact S'|vm_compute; reflexivity]|].
  split; apply fresh_mounted; vm_compute; reflexivity.
Qed.
Example c166_in_use : in_use c166_start /\ course c166_state c166_changed.
Proof.
  split; [|exact (changed_course c166_state _)]. destruct c166_images as (_ & _ & _ & _ & (fs0 & M & R) & _). exists (c166_img c166_old), c166_start.
  split; [|apply co_none]. unfold c166_start, fresh. rewrite M. reflexivity.
Qed.

(** C166: attributes that were given once are given for the same number for ever. *)
Theorem c166_attributes_kept : forall fs fs' i a, in_use fs -> course fs fs' -> fuse_getattr fs i = Ok a -> fuse_getattr fs' i = Ok a.
Proof. exact swap_getattr. Qed.
Theorem c166_looked_up : forall fuel fs p n fs1 a fs', in_use fs -> fuse_lookup fuel fs p n = (fs1, Ok a) -> course fs1 fs' ->
  fuse_getattr fs' (a_ino a) = Ok a.
Proof. exact swap_lookup. Qed.
Example c166_looked_up_example : fuse_getattr c166_changed 2 = Ok (mkAttr 2 3 1 false).
Proof.
  exact (c166_looked_up 20 c166_start 1 (text "f") c166_state (mkAttr 2 3 1 false) c166_changed (proj1 c166_in_use) (run_lookup c166_start 1 (text "f") _ (proj1 c166_facts)) (proj2 c166_in_use)).
Qed.

(** C166: a number is given to the same entry again and to no other. *)
Theorem c166_same_number_same_attributes : forall fuel fuel' fs p n fs1 a fs2 p' n' fs3 a', in_use fs -> fuse_lookup fuel fs p n = (fs1, Ok a) ->
  course fs1 fs2 -> fuse_lookup fuel' fs2 p' n' = (fs3, Ok a') -> a_ino a = a_ino a' -> a = a'.
Proof. exact swap_numbers. Qed.
Theorem c166_same_number_same_entry : forall fuel fs p n fs1 a r e fs2 fuel' p' n' fs3 a' r' e', in_use fs ->
  fuse_lookup fuel fs p n = (fs1, Ok a) -> dirtab_by_inode fs p = Some r -> walk_path fuel (m_dev fs) r n = Ok e ->
  course fs1 fs2 ->
  fuse_lookup fuel' fs2 p' n' = (fs3, Ok a') -> dirtab_by_inode fs2 p' = Some r' -> walk_path fuel' (m_dev fs2) r' n' = Ok e' ->
  (a_ino a = a_ino a' <-> e = e').
Proof. exact swap_entry. Qed.
Example c166_numbers_example : 2 = a_ino (mkAttr 3 3 1 false) -> mkAttr 2 3 1 false = mkAttr 3 3 1 false.
Proof.
  exact (c166_same_number_same_attributes 20 20 c166_start 1 (text "f") c166_state (mkAttr 2 3 1 false) c166_changed 1 (text "e") (after_lookup c166_changed 1 (text "e")) (mkAttr 3 3 1 false) (proj1 c166_in_use) (run_lookup c166_start 1 (text "f") _ (proj1 c166_facts)) (proj2 c166_in_use)
    (run_lookup c166_changed 1 (text "e") _ (proj1 (proj2 (proj2 (proj2 (proj2 c166_facts))))))).
Qed.

(** C166: a read looks into the present file, at the place that was looked up;
    with the same file as then it gives the same. *)
Theorem c166_read_place : forall fuel fs p n fs1 a fs' o c, in_use fs -> fuse_lookup fuel fs p n = (fs1, Ok a) -> course fs1 fs' ->
  fuse_read fs' (a_ino a) o c = fuse_read (changed fs1 (m_dev fs')) (a_ino a) o c.
Proof. exact swap_read. Qed.
Theorem c166_read_unchanged : forall fuel fs p n fs1 a fs' o c, in_use fs -> fuse_lookup fuel fs p n = (fs1, Ok a) -> course fs1 fs' ->
  m_dev fs' = m_dev fs1 -> fuse_read fs' (a_ino a) o c = fuse_read fs1 (a_ino a) o c.
Proof. exact swap_read_back. Qed.
Example c166_read_example : fuse_read (changed c166_changed (m_dev c166_state)) 2 0 3 = Ok [x01; x02; x03].
Proof.
  refine (eq_trans (c166_read_unchanged 20 c166_start 1 (text "f") c166_state (mkAttr 2 3 1 false) (changed c166_changed (m_dev c166_state)) 0 3 (proj1 c166_in_use) (run_lookup c166_start 1 (text "f") _ (proj1 c166_facts)) _ _) (proj1 (proj2 c166_facts))).
  - exact (course_trans _ _ _ (proj2 c166_in_use) (changed_course c166_changed _)).
  - exact (changed_dev c166_changed (m_dev c166_state)).
Qed.

(** C166: whatever the file has become, lookups and reads do not panic. *)
Theorem c166_no_panic : forall fuel fs p n i o c, calm (m_dev fs) -> component n ->
  ~ panics (snd (fuse_lookup fuel fs p n)) /\ ~ panics (fuse_read fs i o c).
Proof. exact swap_answers. Qed.
Example c166_no_panic_example : ~ panics (fuse_read (changed c166_state (fun _ _ => Err OutOfBounds)) 2 0 3).
Proof.
  assert (C : component (text "f")) by (split; [discriminate|intros [H|[]]; discriminate H]).
  refine (proj2 (c166_no_panic 20 _ 1 (text "f") 2 0 3 _ C)). intros o n. right. eexists. reflexivity.
Qed.

(** C166, finding: when the file has been replaced by another proper image, a
    read of a file can give the contents of another file of that image, and a
    file of that image is not found. *)
Theorem c166_present_contents_refuted : exists t t' img img' fs fs1 a fs' s b b' b'',
  source t /\ packs Debug t img /\ source t' /\ packs Debug t' img' /\ mounted img fs /\ mounted img' fs'
  /\ t = FDir [(s, FFile b)] /\ (exists s', t' = FDir [(s', FFile b''); (s, FFile b')])
  /\ fuse_lookup 20 fs 1 s = (fs1, Ok a) /\ fuse_read fs1 (a_ino a) 0 3 = Ok b
  /\ fuse_read (changed fs1 (m_dev fs')) (a_ino a) 0 3 = Ok b'' /\ b'' <> b /\ b'' <> firstn 3 b'
  /\ snd (fuse_lookup 20 (changed fs1 (m_dev fs')) 1 s) = Err EIO.
Proof.
  destruct c166_images as (A & B & C & D & E & F). destruct c166_facts as (G & H & _ & I & _ & J & _).
  exists c166_old, c166_new, (c166_img c166_old), (c166_img c166_new), c166_start, c166_state, (mkAttr 2 3 1 false), (fresh (c166_img c166_new)),
    (text "f"), [x01; x02; x03], [x07; x08; x09; x0a], [x04; x05; x06].
  refine (conj A (conj B (conj C (conj D (conj E (conj F (conj eq_refl (conj (ex_intro _ (text "e") eq_refl)
    (conj (run_lookup c166_start 1 (text "f") _ G) (conj H (conj I (conj _ (conj _ J))))))))))))); discriminate.
Qed.
Print Assumptions c166_attributes_kept.
Print Assumptions c166_looked_up.
Print Assumptions c166_same_number_same_attributes.
Print Assumptions c166_same_number_same_entry.
Print Assumptions c166_read_place.
Print Assumptions c166_read_unchanged.
Print Assumptions c166_no_panic.
Print Assumptions c166_present_contents_refuted.
