(** Proofs for C166: numbers of a mounted image while its file changes. *)
From Verif Require Import M_Base M_Util M_Layout M_Read M_Img M_Check M_Remap M_Cli M_Fuse.
From Verif Require Import S_Avl S_Codec S_Read S_Img S_Check S_Cli S_Fuse S_Total S_Swap.
From Verif Require Import P_Base P_Total P_Fuse.
From Coq Require Import Init.Byte.
Local Open Scope N_scope.

Definition lasts (fs fs' : mount) : Prop :=
  m_root fs' = m_root fs /\ (good (m_cache fs) -> good (m_cache fs') /\ keeps (m_cache fs) (m_cache fs')).
Lemma lasts_refl fs : lasts fs fs.
Proof. split; [reflexivity|]. intros G. split; [exact G|]. intros i e H. exact H. Qed.
Lemma lasts_trans a b c : lasts a b -> lasts b c -> lasts a c.
Proof.
  intros (A & B) (C & D). split; [congruence|]. intros G. destruct (B G) as (G1 & K1). destruct (D G1) as (G2 & K2).
  split; [exact G2|]. eapply keeps_trans; eauto.
Qed.
Lemma evolves_lasts a b : evolves a b -> lasts a b.
Proof. intros ((_ & R) & K). split; assumption. Qed.
Lemma course_lasts fs fs' : course fs fs' -> lasts fs fs'.
Proof.
  induction 1 as [fs|fs d fs' H IH|fuel fs p n fs' H IH|fuel fs i o full fs' H IH].
  - apply lasts_refl.
  - exact IH.
  - eapply lasts_trans; [apply evolves_lasts, lookup_evolves|exact IH].
  - eapply lasts_trans; [apply evolves_lasts, readdir_evolves|exact IH].
Qed.
Lemma course_trans a b c : course a b -> course b c -> course a c.
Proof. induction 1; intros; [assumption|eapply co_change|eapply co_lookup|eapply co_readdir]; eauto. Qed.

Lemma mount_new_good file fs : mount_new file = Ok fs -> good (m_cache fs).
Proof. intros H. exact (proj1 (mounted_good file fs (ex_intro _ fs (conj H (rq_none fs))))). Qed.
Lemma in_use_good fs : in_use fs -> good (m_cache fs).
Proof. intros (file & fs0 & H & C). apply (proj2 (course_lasts _ _ C)). exact (mount_new_good _ _ H). Qed.

Lemma dirent_lasts fs fs' i e : good (m_cache fs) -> lasts fs fs' -> dirent_by_inode fs i = FValue e -> dirent_by_inode fs' i = FValue e.
Proof.
  intros G (_ & K). destruct (K G) as (_ & K'). unfold dirent_by_inode. destruct (i =? 1); [discriminate|].
  destruct (M_Fuse.node_of (ic_nodes (m_cache fs)) i) as [e'|] eqn:E; [|discriminate]. intros [= ->]. rewrite (K' _ _ E). reflexivity.
Qed.

(** ** Attributes never change *)
Lemma swap_getattr fs fs' i a : in_use fs -> course fs fs' -> fuse_getattr fs i = Ok a -> fuse_getattr fs' i = Ok a.
Proof.
  intros U C. apply in_use_good in U. pose proof (course_lasts _ _ C) as L. unfold fuse_getattr.
  destruct (dirent_by_inode fs i) as [e| |] eqn:E.
  - rewrite (dirent_lasts _ _ _ _ U L E). trivial.
  - intros H. unfold dirent_by_inode in E |- *. destruct (i =? 1); [rewrite (proj1 L); exact H|]. destruct (M_Fuse.node_of _ i); discriminate E.
  - discriminate.
Qed.
Lemma swap_lookup fuel fs p n fs1 a fs' : in_use fs -> fuse_lookup fuel fs p n = (fs1, Ok a) -> course fs1 fs' -> fuse_getattr fs' (a_ino a) = Ok a.
Proof.
  intros U L C. pose proof (in_use_good _ U) as G. destruct (lookup_case_ok _ _ _ _ _ _ G L) as (r & e & _ & _ & Q & D & G1).
  apply (swap_getattr fs1); [|exact C|rewrite Q at 2; apply getattr_value; exact D].
  destruct U as (file & fs0 & M & C0). exists file, fs0. split; [exact M|]. eapply course_trans; [exact C0|].
  eapply co_lookup. rewrite L. apply co_none.
Qed.

(** ** Numbers are never given to anything else *)
Lemma swap_numbers fuel fuel' fs p n fs1 a fs2 p' n' fs3 a' : in_use fs -> fuse_lookup fuel fs p n = (fs1, Ok a) -> course fs1 fs2 ->
  fuse_lookup fuel' fs2 p' n' = (fs3, Ok a') -> a_ino a = a_ino a' -> a = a'.
Proof.
  intros U L C L' Q.
  assert (U2 : in_use fs2).
  { destruct U as (file & fs0 & M & C0). exists file, fs0. split; [exact M|]. eapply course_trans; [exact C0|].
    eapply co_lookup. rewrite L. exact C. }
  pose proof (swap_lookup _ _ _ _ _ _ fs3 U L) as A. pose proof (swap_lookup _ _ _ _ _ _ fs3 U2 L' (co_none _)) as B.
  assert (C3 : course fs1 fs3).
  { eapply course_trans; [exact C|]. eapply co_lookup. rewrite L'. apply co_none. }
  specialize (A C3). rewrite Q in A. congruence.
Qed.
Lemma swap_entry fuel fs p n fs1 a r e fs2 fuel' p' n' fs3 a' r' e' : in_use fs ->
  fuse_lookup fuel fs p n = (fs1, Ok a) -> dirtab_by_inode fs p = Some r -> walk_path fuel (m_dev fs) r n = Ok e ->
  course fs1 fs2 ->
  fuse_lookup fuel' fs2 p' n' = (fs3, Ok a') -> dirtab_by_inode fs2 p' = Some r' -> walk_path fuel' (m_dev fs2) r' n' = Ok e' ->
  (a_ino a = a_ino a' <-> e = e').
Proof.
  intros U L T W C L' T' W'. pose proof (in_use_good _ U) as G. destruct (lookup_case_ok _ _ _ _ _ _ G L) as (r1 & e1 & T1 & W1 & _ & D & G1).
  rewrite T in T1. injection T1 as <-. rewrite W in W1. injection W1 as <-.
  pose proof (course_lasts _ _ C) as LC. pose proof (proj1 (proj2 LC G1)) as G2.
  destruct (lookup_case_ok _ _ _ _ _ _ G2 L') as (r2 & e2 & T2 & W2 & _ & D2 & G3).
  rewrite T' in T2. injection T2 as <-. rewrite W' in W2. injection W2 as <-.
  assert (L3 : lasts fs1 fs3).
  { eapply lasts_trans; [exact LC|]. replace fs3 with (fst (fuse_lookup fuel' fs2 p' n')) by (rewrite L'; reflexivity). apply evolves_lasts, lookup_evolves. }
  pose proof (dirent_lasts _ _ _ _ G1 L3 D) as D'. split.
  - intros Q. rewrite Q in D'. congruence.
  - intros <-. exact (dirent_inj _ _ _ _ G3 D' D2).
Qed.

(** ** Lookups never panic *)
Lemma swap_no_panic fuel fs p n : calm (m_dev fs) -> component n -> ~ panics (snd (fuse_lookup fuel fs p n)).
Proof.
  intros C (N0 & N1) [k P]. unfold fuse_lookup in P. destruct (dirtab_by_inode fs p) as [r|]; [|discriminate P].
  destruct (walk_path fuel (m_dev fs) r n) as [e|e|q|] eqn:W; cbn [eio] in P; try discriminate P.
  - destruct (get_or_assign (m_cache fs) e). discriminate P.
  - assert (O : only_slashes n) by (apply (walk_path_np _ C fuel r); exists q; exact W). destruct O as [m ->]. apply N1. left. reflexivity.
Qed.
Lemma swap_read_no_panic fs i o n : calm (m_dev fs) -> ~ panics (fuse_read fs i o n).
Proof.
  intros C [k P]. unfold fuse_read in P. destruct (dirent_by_inode fs i) as [e| |]; try discriminate P.
  destruct (read_data_offset (m_dev fs) (d_dirent (e_node e)) n o) as [b|x|q|] eqn:W; cbn [eio] in P; try discriminate P.
  apply (read_data_offset_np _ C (d_dirent (e_node e)) n o). exists q. exact W.
Qed.

(** ** What is read is in the place that was looked up, in the present file *)
Lemma swap_read fuel fs p n fs1 a fs' o c : in_use fs -> fuse_lookup fuel fs p n = (fs1, Ok a) -> course fs1 fs' ->
  fuse_read fs' (a_ino a) o c = fuse_read (changed fs1 (m_dev fs')) (a_ino a) o c.
Proof.
  intros U L C. pose proof (in_use_good _ U) as G. destruct (lookup_case_ok _ _ _ _ _ _ G L) as (r & e & _ & _ & _ & D & G1).
  pose proof (dirent_lasts _ _ _ _ G1 (course_lasts _ _ C) D) as D'. unfold fuse_read. rewrite D'.
  change (dirent_by_inode (changed fs1 (m_dev fs')) (a_ino a)) with (dirent_by_inode fs1 (a_ino a)). rewrite D. reflexivity.
Qed.
Lemma swap_read_back fuel fs p n fs1 a fs' o c : in_use fs -> fuse_lookup fuel fs p n = (fs1, Ok a) -> course fs1 fs' -> m_dev fs' = m_dev fs1 ->
  fuse_read fs' (a_ino a) o c = fuse_read fs1 (a_ino a) o c.
Proof. intros U L C Q. rewrite (swap_read _ _ _ _ _ _ _ o c U L C), Q. destruct fs1. reflexivity. Qed.
Lemma swap_answers fuel fs p n i o c : calm (m_dev fs) -> component n ->
  ~ panics (snd (fuse_lookup fuel fs p n)) /\ ~ panics (fuse_read fs i o c).
Proof. intros C N. split; [apply swap_no_panic|apply swap_read_no_panic]; assumption. Qed.
Lemma changed_dev fs d : m_dev (changed fs d) = d.
Proof. reflexivity. Qed.
Lemma changed_course fs d : course fs (changed fs d).
Proof. eapply co_change. apply co_none. Qed.
