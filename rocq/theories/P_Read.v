(** Proofs about reading images. *)
From Verif Require Import M_Base M_Util M_Layout M_Read S_Avl S_Codec S_Read P_Base P_Layout P_Codec.
From Coq Require Import Init.Byte Strings.Byte Sorted.
Local Open Scope N_scope.

Lemma nth_firstn {A} (l : list A) n i : (i < n)%nat -> nth_error (firstn n l) i = nth_error l i.
Proof. revert l i; induction n as [|n IH]; intros [|a l] [|i] H; cbn; auto; try lia. apply IH; lia. Qed.
Lemma nth_skipn {A} (l : list A) n i : nth_error (skipn n l) i = nth_error l (n + i).
Proof. revert l; induction n as [|n IH]; intros [|a l]; cbn; auto. destruct i; auto. Qed.

Lemma slice_nth {A} (l : list A) off n i : (i < N.to_nat n)%nat -> nth_error (slice l off n) i = nth_error l (N.to_nat off + i).
Proof. intros H. unfold slice. rewrite nth_firstn by auto. apply nth_skipn. Qed.

Lemma slice_short {A} (l : list A) off n : (length (slice l off n) <= N.to_nat n)%nat.
Proof. unfold slice. rewrite firstn_length. lia. Qed.

Lemma opt_b2n_inj a b : option_map b2n a = option_map b2n b -> a = b.
Proof. destruct a, b; cbn; intros H; try congruence. injection H as H. apply b2n_inj in H. congruence. Qed.

Lemma field_slice b off n x : field b off n x -> slice b (N.of_nat off) (N.of_nat n) = le n x.
Proof.
  intros H. apply nth_error_ext. intros i. destruct (Nat.ltb_spec i n) as [Hi|Hi].
  - apply opt_b2n_inj. rewrite le_nth by auto. rewrite slice_nth by lia. rewrite Nnat.Nat2N.id. apply H. auto.
  - pose proof (slice_short b (N.of_nat off) (N.of_nat n)) as H1.
    rewrite (proj2 (nth_error_None _ _)) by lia. symmetry. apply nth_error_None. rewrite le_length. auto.
Qed.

Lemma slice_field b off n x : slice b (N.of_nat off) (N.of_nat n) = le n x -> field b off n x.
Proof.
  intros H i Hi. rewrite <- le_nth with (n := n) by auto. rewrite <- H. rewrite slice_nth by lia. rewrite Nnat.Nat2N.id. reflexivity.
Qed.

Lemma bytes_at_slice b off l : bytes_at b off l <-> slice b (N.of_nat off) (len l) = l.
Proof.
  unfold bytes_at, len. split.
  - intros H. apply nth_error_ext. intros i. destruct (Nat.ltb_spec i (length l)) as [Hi|Hi].
    + rewrite slice_nth by lia. rewrite Nnat.Nat2N.id. apply H; auto.
    + pose proof (slice_short b (N.of_nat off) (N.of_nat (length l))) as H1.
      rewrite (proj2 (nth_error_None _ _)) by lia. symmetry. apply nth_error_None. auto.
  - intros H i Hi. rewrite <- H at 1. rewrite slice_nth by lia. rewrite Nnat.Nat2N.id. reflexivity.
Qed.

Lemma magic_eq : magic = VOLUME_HEADER_MAGIC.
Proof. vm_compute. reflexivity. Qed.

(** ** Volume (C25, C26) *)
Lemma descriptor_iff b : len b = 2048 ->
  (forall r, descriptor b r <-> volume_is_valid (volume_de b) = true /\ v_root (volume_de b) = r).
Proof.
  intros HL r. unfold descriptor. rewrite volume_valid_iff. pose proof (volume_de_wf b HL) as HW.
  pose proof (volume_fields _ HW) as HF. cbv zeta in HF. rewrite volume_ser_de in HF by auto.
  destruct HW as (H1 & (H2 & H3) & _). destruct HF as (_ & F1 & F2 & F3 & _ & _ & F4).
  rewrite magic_eq. split.
  - intros (_ & A1 & A2 & A3 & A4 & A5 & A6).
    apply bytes_at_slice in A1, A2. change (len VOLUME_HEADER_MAGIC) with 20 in *.
    ssplit; auto.
    apply field_slice in A3, A4, F2, F3.
    rewrite A3 in F2. rewrite A4 in F3. apply (f_equal unle) in F2, F3. rewrite !unle_le4 in F2, F3 by auto.
    destruct (v_root (volume_de b)), r; cbn in *; congruence.
  - intros ((A1 & A2) & <-). rewrite A1 in F1. rewrite A2 in F4. ssplit; auto.
Qed.

Lemma read_volume_iff d v : lawful d ->
  (read_volume d = Ok v <-> exists b, d 65536 2048 = Ok b /\ descriptor b (v_root v) /\ v = volume_de b).
Proof.
  intros HL. unfold read_volume. change (SECTOR_SIZE * 32) with 65536. split.
  - intros H. destruct (d 65536 2048) as [b| | |] eqn:E; cbn in H; try discriminate.
    destruct (volume_is_valid (volume_de b)) eqn:V; try discriminate. injection H as <-.
    exists b. ssplit; auto. apply descriptor_iff; auto. apply HL in E; auto.
  - intros (b & E & HD & ->). rewrite E. cbn. apply descriptor_iff in HD; [|apply HL in E; auto].
    destruct HD as (-> & _). reflexivity.
Qed.

Lemma c25_lemma d : lawful d -> calm d ->
  (forall v, read_volume d = Ok v -> exists b, d 65536 2048 = Ok b /\ descriptor b (v_root v))
  /\ (forall b r, d 65536 2048 = Ok b -> descriptor b r -> exists v, read_volume d = Ok v /\ v_root v = r)
  /\ (~ volume_at d 0 -> read_volume d = Err InvalidVolume).
Proof.
  intros HL HC. ssplit.
  - intros v H. apply read_volume_iff in H; auto. destruct H as (b & ? & ? & _). eauto.
  - intros b r E D. assert (len b = 2048) by (apply HL in E; auto).
    pose proof D as D'. apply descriptor_iff in D; auto. destruct D as (D1 & D2).
    exists (volume_de b). split; auto. apply read_volume_iff; auto. exists b. rewrite D2. auto.
  - intros H. unfold read_volume. change (SECTOR_SIZE * 32) with 65536.
    destruct (HC 65536 2048) as [(b & E)|(e & E)]; rewrite E; cbn; auto.
    destruct (volume_is_valid (volume_de b)) eqn:V; auto. destruct H.
    exists b, (v_root (volume_de b)). split; auto. apply descriptor_iff; auto. apply HL in E; auto.
Qed.

Lemma offset_lawful d o : lawful d -> lawful (offset_dev d o).
Proof. intros H x n bs. apply H. Qed.
Lemma offset_calm d o : calm d -> calm (offset_dev d o).
Proof. intros H x n. apply H. Qed.

Lemma volume_dec d : lawful d -> calm d ->
  (exists v, read_volume d = Ok v /\ volume_at d 0) \/ (read_volume d = Err InvalidVolume /\ ~ volume_at d 0).
Proof.
  intros HL HC. destruct (c25_lemma d HL HC) as (H1 & H2 & H3).
  destruct (read_volume d) as [v|e| |] eqn:E.
  - left. destruct (H1 v eq_refl) as (b & E1 & D). exists v. split; auto. exists b, (v_root v). auto.
  - right. split.
    + unfold read_volume in E. change (SECTOR_SIZE * 32) with 65536 in E.
      destruct (HC 65536 2048) as [(b & E')|(e' & E')]; rewrite E' in E; cbn in E; try congruence.
      destruct (volume_is_valid (volume_de b)); congruence.
    + intros (b & r & Eb & D). destruct (H2 b r Eb D) as (v & Hv & _). congruence.
  - right. assert (N : ~ volume_at d 0) by (intros (b & r & Eb & D); destruct (H2 b r Eb D) as (v & Hv & _); congruence).
    apply H3 in N. congruence.
  - right. assert (N : ~ volume_at d 0) by (intros (b & r & Eb & D); destruct (H2 b r Eb D) as (v & Hv & _); congruence).
    apply H3 in N. congruence.
Qed.

Lemma volume_at_offset d o : volume_at (offset_dev d o) 0 <-> volume_at d o.
Proof. unfold volume_at, offset_dev. change (65536 + 0) with 65536. tauto. Qed.

Lemma probe_spec d : lawful d -> calm d -> forall os,
  (exists pre o post, os = pre ++ o :: post /\ volume_at d o /\ (forall o', In o' pre -> ~ volume_at d o') /\ probe d os = Ok o)
  \/ ((forall o, In o os -> ~ volume_at d o) /\ probe d os = Err InvalidVolume).
Proof.
  intros HL HC. induction os as [|o os IH]; cbn [probe].
  - right. split; [intros o []|reflexivity].
  - destruct (volume_dec (offset_dev d o) (offset_lawful _ _ HL) (offset_calm _ _ HC)) as [(v & Hv & HA)|(Hv & HA)]; rewrite Hv.
    + left. exists [], o, os. ssplit; [reflexivity|apply volume_at_offset; auto|intros o' []|reflexivity].
    + rewrite volume_at_offset in HA. destruct IH as [(pre & o1 & post & -> & A & B & C)|(A & B)].
      * left. exists (o :: pre), o1, post. ssplit; auto. intros o' [<-|H]; auto.
      * right. split; auto. intros o' [<-|H]; auto.
Qed.

(** ** Entries *)
Lemma dnode_fields_de hdr : len hdr = 14 ->
  let d := dnode_de hdr in
  field hdr 0 2 (d_left d) /\ field hdr 2 2 (d_right d)
  /\ field hdr 4 4 (r_sector (d_region (d_dirent d))) /\ field hdr 8 4 (r_size (d_region (d_dirent d)))
  /\ field hdr 12 1 (d_attrs (d_dirent d)) /\ field hdr 13 1 (d_namelen (d_dirent d)).
Proof.
  intros HL d. pose proof (dnode_fields d) as H. cbv zeta in H. subst d. rewrite dnode_ser_de in H by auto. tauto.
Qed.

Lemma deserialize_iff b off e :
  deserialize_dirent_node b off = Some e <->
  b <> fill 14 xff /\ b <> fill 14 x00 /\ e = mkDentry (dnode_de b) (fill 256 x00) off.
Proof.
  unfold deserialize_dirent_node. pose proof (bytes_eqb_spec b (fill 14 xff)) as H1. pose proof (bytes_eqb_spec b (fill 14 x00)) as H2.
  destruct (bytes_eqb b (fill 14 xff)), (bytes_eqb b (fill 14 x00)); cbn.
  - split; [discriminate|]. intros (A & _). destruct A. apply H1; auto.
  - split; [discriminate|]. intros (A & _). destruct A. apply H1; auto.
  - split; [discriminate|]. intros (_ & A & _). destruct A. apply H2; auto.
  - split; [intros H; injection H as <-|intros (_ & _ & ->); auto]. ssplit; auto; intros H; [apply H1 in H|apply H2 in H]; discriminate.
Qed.

Lemma deserialize_none b off :
  deserialize_dirent_node b off = None <-> b = fill 14 xff \/ b = fill 14 x00.
Proof.
  unfold deserialize_dirent_node. rewrite <- !bytes_eqb_spec.
  destruct (bytes_eqb b (fill 14 xff)), (bytes_eqb b (fill 14 x00)); cbn; split; auto; try discriminate; intros [H|H]; discriminate.
Qed.

Lemma skipn_fill {A} n m (x : A) : m <= n -> skipn (N.to_nat m) (fill n x) = fill (n - m) x.
Proof.
  intros H. unfold fill. rewrite N2Nat.inj_sub. assert (N.to_nat m <= N.to_nat n)%nat as H' by lia.
  revert H'. generalize (N.to_nat m) as a, (N.to_nat n) as b. clear.
  induction a as [|a IH]; intros [|b] H; cbn; auto; try lia. apply IH. lia.
Qed.

Lemma read_dirent_iff d off e : lawful d ->
  (read_dirent d off = Ok (Some e) <-> stored d e /\ e_offset e = off).
Proof.
  intros HL. unfold read_dirent, stored. split.
  - intros H. destruct (d off 14) as [hdr| | |] eqn:E1; cbn in H; try discriminate.
    destruct (deserialize_dirent_node hdr off) as [e0|] eqn:E2; try discriminate.
    apply deserialize_iff in E2. destruct E2 as (N1 & N2 & ->). cbn [e_node d_dirent] in H.
    destruct (d (off + 14) (d_namelen (d_dirent (dnode_de hdr)))) as [nb| | |] eqn:E3; cbn in H; try discriminate.
    injection H as <-. cbn [with_name e_node e_offset e_name]. split; auto.
    pose proof (HL _ _ _ E1) as L1. pose proof (HL _ _ _ E3) as L3.
    pose proof (dnode_fields_de hdr L1) as F. cbv zeta in F. pose proof (dnode_de_wf hdr L1) as W.
    unfold dnode_wf, ddata_wf, region_wf in W. 
    exists hdr, nb. ssplit; try (rewrite ?L3; tauto); try (symmetry; exact L3); try (rewrite L3; exact E3); try tauto.
    f_equal. rewrite <- skipn_fill by (rewrite L3; lia). unfold len. rewrite Nnat.Nat2N.id. reflexivity.
  - intros ((hdr & nb & E1 & N1 & N2 & F1 & B1 & F2 & B2 & F3 & B3 & F4 & B4 & F5 & B5 & F6 & B6 & B7 & E2 & E3) & <-).
    rewrite E1. cbn [io map_err bind]. pose proof (HL _ _ _ E1) as L1.
    assert (HD : dnode_de hdr = e_node e).
    { unfold dnode_de, region_de. apply field_slice in F1, F2, F3, F4, F5, F6.
      change (N.of_nat 0) with 0 in *. change (N.of_nat 1) with 1 in *. change (N.of_nat 2) with 2 in *. change (N.of_nat 4) with 4 in *.
      change (N.of_nat 8) with 8 in *. change (N.of_nat 12) with 12 in *. change (N.of_nat 13) with 13 in *.
      rewrite !slice_slice by lia. change (4 + 0) with 4. change (4 + 4) with 8.
      rewrite F1, F2, F3, F4, F5, F6. rewrite !unle_le2, !unle_le4, !unle_le1 by auto. rewrite <- B6.
      destruct (e_node e) as [a b [[c f] g h]]; cbn. reflexivity. }
    assert (HS : deserialize_dirent_node hdr (e_offset e) = Some (mkDentry (dnode_de hdr) (fill 256 x00) (e_offset e))).
    { apply deserialize_iff. ssplit; auto. }
    rewrite HS. cbn [e_node]. rewrite HD, B6, E2. cbn [io map_err bind].
    unfold with_name. cbn [e_node e_name e_offset]. do 2 f_equal.
    destruct e as [en enm eo]; cbn in *. f_equal. rewrite E3. f_equal.
    replace (length nb) with (N.to_nat (len nb)) by (unfold len; lia). apply skipn_fill. lia.
Qed.

Lemma read_dirent_none d off : lawful d ->
  (read_dirent d off = Ok None <-> d off 14 = Ok (fill 14 xff) \/ d off 14 = Ok (fill 14 x00)).
Proof.
  intros HL. unfold read_dirent. destruct (d off 14) as [hdr| | |] eqn:E1; cbn [io map_err bind].
  - destruct (deserialize_dirent_node hdr off) as [e0|] eqn:E2.
    + apply deserialize_iff in E2. split.
      * destruct (d (off + 14) _); cbn; discriminate.
      * intros [H|H]; injection H as ->; tauto.
    + apply deserialize_none in E2. split; auto. intros _. destruct E2 as [->| ->]; auto.
  - split; [discriminate|intros [H|H]; discriminate].
  - split; [discriminate|intros [H|H]; discriminate].
  - split; [discriminate|intros [H|H]; discriminate].
Qed.
