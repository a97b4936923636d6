(** Proofs about small pages of directory listings (C148). *)
From Verif Require Import M_Base M_Util M_Layout M_Read M_Img M_Check M_Remap M_Cli M_Fuse.
From Verif Require Import S_Avl S_Codec S_Read S_Img S_Check S_Cli S_Fuse S_Pages.
From Verif Require Import P_Base P_Fuse.
From Coq Require Import Init.Byte Permutation Lia.
Local Open Scope N_scope.

Lemma pages_rows ino r es s : forall fs offset l fs', reads_pages ino fs offset l fs' ->
  good (m_cache fs) -> dirtab_by_inode fs ino = Some r -> scan_dirent_tree (m_dev fs) r = Ok s -> yields (m_dev fs) s es ->
  map row l = skipn (N.to_nat offset) (rows_of es).
Proof.
  induction 1 as [fuel fs offset full fs' HR E|fuel fs offset full l x fs1 fs2 l' fs' HR E HQ HL IH]; intros G HT HS Y.
  - destruct (readdir_page _ _ _ _ _ _ _ _ _ _ HT HS Y E) as (rest & A & [->|(y & B)]); [symmetry; exact A|].
    rewrite HR in B. discriminate B.
  - destruct (readdir_page _ _ _ _ _ _ _ _ _ _ HT HS Y E) as (rest & A & _).
    assert (HQ' : requests fs fs2) by (eapply requests_trans; [eapply readdir_requests; eauto|auto]).
    destruct (requests_evolve _ _ HQ') as ((Ed & Er) & K). destruct (K G) as (G2 & _).
    rewrite map_app, A. f_equal. rewrite (rows_last _ _ _ _ _ A). apply IH; [exact G2|exact (dirtab_same _ _ _ _ G HQ' HT)|rewrite Ed; exact HS|rewrite Ed; exact Y].
Qed.

Lemma c148_pages file fs ino r es fuel l fs' : mounted file fs -> dirtab_by_inode fs ino = Some r ->
  scan_all fuel (m_dev fs) r = Ok es -> reads_pages ino fs 0 l fs' -> map shown l = dots ++ map entry_shown es.
Proof.
  intros HM HT HS HL. destruct (mounted_good _ _ HM) as (G & _). unfold scan_all in HS. destruct (scan_dirent_tree (m_dev fs) r) as [s| | |] eqn:Q; try discriminate. cbn [bind] in HS.
  pose proof (pages_rows _ _ _ _ _ _ _ _ HL G HT Q (collect_yields _ _ _ _ HS)) as E. change (skipn (N.to_nat 0) (rows_of es)) with (rows_of es) in E.
  rewrite <- rows_shown, <- E, map_map. reflexivity.
Qed.

Lemma small_total file fs ino r es fuel offset full : mounted file fs -> dirtab_by_inode fs ino = Some r -> scan_all fuel (m_dev fs) r = Ok es ->
  exists n, forall fuel, (n <= fuel)%nat ->
    (dots_fit ino offset full /\ exists fs' l, fuse_readdir fuel fs ino offset full = (fs', Ok l))
    \/ (~ dots_fit ino offset full /\ fuse_readdir fuel fs ino offset full = (fs, Err EIO)).
Proof.
  intros HM HT HS. unfold scan_all in HS. destruct (scan_dirent_tree (m_dev fs) r) as [s| | |] eqn:Q; try discriminate. cbn [bind] in HS.
  destruct (skip_total _ _ _ (collect_yields _ _ _ _ HS)) as (n & H). exists n. intros k Hk. unfold fuse_readdir. rewrite HT, Q. cbn [eio].
  destruct (H k 2 offset Hk) as (s' & i & E & F). rewrite E. cbn [eio].
  assert (Z : forall l, exists fs' l', (let (c, x) := fill_entries k (m_dev fs) full s' i (m_cache fs) l in (with_cache fs c, eio x)) = (fs', Ok l')).
  { intros l. destruct (F k full i (m_cache fs) l Hk) as (c & l' & E'). rewrite E'. cbn [eio]. eauto. }
  unfold dots_fit. destruct (N.eqb_spec offset 0) as [->|H0].
  - cbn [andb]. destruct (full [] (mkRdent ino 1 true [46])) eqn:F1.
    { right. split; auto. intros (A & _). destruct (A eq_refl) as (A1 & _). discriminate A1. }
    change (0 <=? 1) with true. cbn [andb]. destruct (full [mkRdent ino 1 true [46]] (mkRdent ino 2 true [46; 46])) eqn:F2.
    { right. split; auto. intros (A & _). destruct (A eq_refl) as (_ & A1). discriminate A1. }
    left. split; [split; [auto|discriminate]|]. apply Z.
  - cbn [andb]. destruct (N.leb_spec offset 1) as [H1|H1]; cbn [andb].
    + destruct (full [] (mkRdent ino 2 true [46; 46])) eqn:F2.
      { right. split; auto. intros (_ & A). assert (offset = 1) by lia. specialize (A H2). discriminate A. }
      left. split; [split; [congruence|auto]|]. apply Z.
    + left. split; [split; [congruence|lia]|]. apply Z.
Qed.

Lemma c148_answers m t img fs segs ino fs' cs offset full : source t -> packs m t img -> mounted img fs -> found_at fs segs ino fs' ->
  Forall component segs -> selected t segs (FDir cs) ->
  exists n, forall fuel, (n <= fuel)%nat ->
    (dots_fit ino offset full /\ exists fs2 l, fuse_readdir fuel fs' ino offset full = (fs2, Ok l))
    \/ (~ dots_fit ino offset full /\ fuse_readdir fuel fs' ino offset full = (fs', Err EIO)).
Proof.
  intros Hs Hp HM HF HC HS. destruct (packed_listing _ _ _ _ _ _ _ _ Hs Hp HM HF HC HS) as (M' & r & es & k & T & A & P).
  eapply small_total; eauto.
Qed.
Lemma c148_packed m t img fs segs ino fs' cs l fs2 : source t -> packs m t img -> mounted img fs -> found_at fs segs ino fs' ->
  Forall component segs -> selected t segs (FDir cs) -> reads_pages ino fs' 0 l fs2 ->
  exists rest, map shown l = dots ++ rest /\ Permutation rest (map child_shown cs).
Proof.
  intros Hs Hp HM HF HC HS HL. destruct (packed_listing _ _ _ _ _ _ _ _ Hs Hp HM HF HC HS) as (M' & r & es & k & T & A & P).
  exists (map entry_shown es). split; auto. eapply c148_pages; eauto.
Qed.
