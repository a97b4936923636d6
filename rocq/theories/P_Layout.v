(** Codecs: little-endian integers, volume descriptor, directory entry, names. *)
From Verif Require Import M_Base M_Util M_Layout P_Base.
From Coq Require Import ZifyBool ZifyNat ZifyN Init.Byte.
Local Open Scope N_scope.

Lemma le_length n x : length (le n x) = n.
Proof. revert x; induction n as [|n IH]; intros x; cbn; auto. Qed.

Lemma le_len n x : len (le n x) = N.of_nat n.
Proof. unfold len. rewrite le_length. reflexivity. Qed.

Lemma unle_le n x : unle (le n x) = x mod 256 ^ N.of_nat n.
Proof.
  revert x; induction n as [|n IH]; intros x; cbn [le unle].
  - cbn. rewrite N.mod_1_r. reflexivity.
  - rewrite IH, b2n_n2b, N.mod_mod by lia.
    rewrite Nnat.Nat2N.inj_succ, N.pow_succ_r'.
    rewrite (N.mod_mul_r x 256 (256 ^ N.of_nat n)) by (try lia; apply N.pow_nonzero; lia).
    reflexivity.
Qed.

Lemma unle_le_small n x : x < 256 ^ N.of_nat n -> unle (le n x) = x.
Proof. intros H. rewrite unle_le. apply N.mod_small. auto. Qed.

Lemma unle_le1 x : x < 256 -> unle (le 1 x) = x.
Proof. intros H. apply unle_le_small. replace (256 ^ N.of_nat 1) with 256 by (vm_compute; reflexivity). exact H. Qed.
Lemma unle_le2 x : x < 65536 -> unle (le 2 x) = x.
Proof. intros H. apply unle_le_small. replace (256 ^ N.of_nat 2) with 65536 by (vm_compute; reflexivity). exact H. Qed.
Lemma unle_le4 x : x < u32_modulus -> unle (le 4 x) = x.
Proof. intros H. apply unle_le_small. replace (256 ^ N.of_nat 4) with u32_modulus by (vm_compute; reflexivity). exact H. Qed.
Lemma unle_le8 x : x < 2 ^ 64 -> unle (le 8 x) = x.
Proof. intros H. apply unle_le_small. replace (256 ^ N.of_nat 8) with (2 ^ 64) by (vm_compute; reflexivity). exact H. Qed.

Lemma unle_bound l : unle l < 256 ^ len l.
Proof.
  induction l as [|b l IH]; [cbn; lia|]. rewrite len_cons, N.pow_add_r. cbn [unle].
  pose proof (b2n_bound b). change (256 ^ 1) with 256. lia.
Qed.

Lemma unle_bound_n l k m : len l = k -> 256 ^ k = m -> unle l < m.
Proof. intros <- <-. apply unle_bound. Qed.

Lemma le_unle l n : length l = n -> le n (unle l) = l.
Proof.
  revert n; induction l as [|b l IH]; intros n <-; cbn [length le unle]; auto.
  pose proof (b2n_bound b).
  replace ((b2n b + 256 * unle l) mod 256) with (b2n b).
  2:{ rewrite (N.mul_comm 256), N.mod_add by lia. rewrite N.mod_small; auto. }
  rewrite n2b_b2n. f_equal.
  replace ((b2n b + 256 * unle l) / 256) with (unle l); auto.
  rewrite N.add_comm, N.mul_comm, N.div_add_l by lia. rewrite N.div_small by auto. lia.
Qed.

(** ** Slices *)
Lemma slice_length {A} (l : list A) off n : off + n <= len l -> length (slice l off n) = N.to_nat n.
Proof. unfold slice, len. intros H. rewrite firstn_length, skipn_length. lia. Qed.

Lemma slice_len {A} (l : list A) off n : off + n <= len l -> len (slice l off n) = n.
Proof. intros H. unfold len at 1. rewrite slice_length by auto. lia. Qed.

Lemma slice_app_l {A} (a b : list A) off n : off + n <= len a -> slice (a ++ b) off n = slice a off n.
Proof.
  unfold slice, len. intros H. rewrite skipn_app, firstn_app, skipn_length.
  replace (N.to_nat n - (length a - N.to_nat off))%nat with 0%nat by lia.
  cbn. apply app_nil_r.
Qed.

Lemma slice_app_r {A} (a b : list A) off n : len a <= off -> slice (a ++ b) off n = slice b (off - len a) n.
Proof.
  unfold slice, len. intros H. rewrite skipn_app.
  rewrite (skipn_all2 a) by lia. cbn. f_equal. f_equal. lia.
Qed.

Lemma slice_full {A} (a : list A) n : n = len a -> slice a 0 n = a.
Proof. intros ->. unfold slice, len. rewrite Nnat.Nat2N.id. cbn. apply firstn_all. Qed.

Lemma slice_prefix {A} (a b : list A) n : n = len a -> slice (a ++ b) 0 n = a.
Proof. intros ->. rewrite slice_app_l by lia. apply slice_full; auto. Qed.

Lemma slice_split {A} (l : list A) off n m : slice l off (n + m) = slice l off n ++ slice l (off + n) m.
Proof.
  unfold slice. rewrite !Nnat.N2Nat.inj_add.
  revert l. induction (N.to_nat off) as [|k IH]; intros l.
  - cbn [skipn plus]. revert l. induction (N.to_nat n) as [|k IH]; intros l; cbn; auto.
    destruct l as [|a l]; cbn; [rewrite firstn_nil; auto|]. f_equal. apply IH.
  - destruct l as [|a l]; cbn [plus skipn]; [rewrite !firstn_nil; auto|]. apply IH.
Qed.

Lemma slice_all {A} (l : list A) n : n = len l -> slice l 0 n = l.
Proof. apply slice_full. Qed.

Lemma slice_slice {A} (l : list A) a n b k : b + k <= n -> slice (slice l a n) b k = slice l (a + b) k.
Proof.
  unfold slice. intros H. rewrite !Nnat.N2Nat.inj_add.
  rewrite skipn_firstn_comm, firstn_firstn. f_equal; [lia|].
  revert l. induction (N.to_nat a) as [|m IH]; intros l; cbn; auto.
  destruct l as [|x l]; cbn; [apply skipn_nil|]. apply IH.
Qed.

Lemma slice_mid {A} (a b c : list A) off n : off = len a -> n = len b -> slice (a ++ b ++ c) off n = b.
Proof. intros -> ->. rewrite slice_app_r by lia. rewrite N.sub_diag. apply slice_prefix. reflexivity. Qed.

Lemma slice_end {A} (a b : list A) off n : off = len a -> n = len b -> slice (a ++ b) off n = b.
Proof. intros H1 H2. rewrite <- (app_nil_r b) at 1. apply slice_mid; auto. Qed.

Lemma slice_0 {A} (l : list A) off : slice l off 0 = [].
Proof. reflexivity. Qed.

(** ** Volume descriptor *)
Definition region_wf (r : region) : Prop := r_sector r < u32_modulus /\ r_size r < u32_modulus.

Definition volume_wf (v : volume) : Prop :=
  len (v_magic0 v) = 20 /\ region_wf (v_root v) /\ v_filetime v < 2 ^ 64
  /\ len (v_unused v) = 1992 /\ len (v_magic1 v) = 20.

Lemma region_ser_len r : len (region_ser r) = 8.
Proof. unfold region_ser. rewrite len_app, !le_len. reflexivity. Qed.

Lemma region_de_ser r : region_wf r -> region_de (region_ser r) = r.
Proof.
  intros (H1 & H2). unfold region_de, region_ser.
  rewrite slice_prefix by (rewrite le_len; reflexivity).
  rewrite slice_app_r by (rewrite le_len; cbn; lia). rewrite le_len.
  rewrite slice_full by (rewrite le_len; reflexivity).
  rewrite !unle_le4 by assumption. destruct r; reflexivity.
Qed.

Lemma region_ser_de b : len b = 8 -> region_ser (region_de b) = b.
Proof.
  intros H. unfold region_ser, region_de. cbn [r_sector r_size].
  rewrite !le_unle by (rewrite slice_length by lia; reflexivity).
  change 4 with (0 + 4) at 3. rewrite <- slice_split. apply slice_full. lia.
Qed.

Lemma region_de_wf b : len b = 8 -> region_wf (region_de b).
Proof.
  intros H. split; cbn [region_de r_sector r_size].
  - apply (unle_bound_n _ 4); [apply slice_len; lia | vm_compute; reflexivity].
  - apply (unle_bound_n _ 4); [apply slice_len; lia | vm_compute; reflexivity].
Qed.

Lemma volume_ser_len v : volume_wf v -> len (volume_ser v) = 2048.
Proof.
  intros (H1 & H2 & H3 & H4 & H5). unfold volume_ser.
  rewrite !len_app, region_ser_len, le_len, H1, H4, H5. reflexivity.
Qed.

Lemma volume_de_ser v : volume_wf v -> volume_de (volume_ser v) = v.
Proof.
  intros (H1 & H2 & H3 & H4 & H5). unfold volume_de, volume_ser.
  pose proof (region_ser_len (v_root v)) as Hr. pose proof (le_len 8 (v_filetime v)) as Hf.
  set (p2 := region_ser (v_root v)) in *. set (p3 := le 8 (v_filetime v)) in *.
  set (p1 := v_magic0 v) in *. set (p4 := v_unused v) in *. set (p5 := v_magic1 v) in *.
  rewrite slice_prefix by auto.
  rewrite (slice_mid p1 p2) by lia.
  replace (p1 ++ p2 ++ p3 ++ p4 ++ p5) with ((p1 ++ p2) ++ p3 ++ p4 ++ p5) by (rewrite <- !app_assoc; reflexivity).
  rewrite (slice_mid (p1 ++ p2) p3) by (rewrite ?len_app; lia).
  replace ((p1 ++ p2) ++ p3 ++ p4 ++ p5) with ((p1 ++ p2 ++ p3) ++ p4 ++ p5) by (rewrite <- !app_assoc; reflexivity).
  rewrite (slice_mid (p1 ++ p2 ++ p3) p4) by (rewrite ?len_app; lia).
  replace ((p1 ++ p2 ++ p3) ++ p4 ++ p5) with ((p1 ++ p2 ++ p3 ++ p4) ++ p5) by (rewrite <- !app_assoc; reflexivity).
  rewrite (slice_end (p1 ++ p2 ++ p3 ++ p4) p5) by (rewrite ?len_app; lia).
  unfold p1, p2, p3, p4, p5. rewrite region_de_ser by auto. rewrite unle_le8 by exact H3.
  destruct v; reflexivity.
Qed.

Lemma volume_ser_de b : len b = 2048 -> volume_ser (volume_de b) = b.
Proof.
  intros H. unfold volume_ser, volume_de. cbn [v_magic0 v_root v_filetime v_unused v_magic1].
  rewrite region_ser_de by (apply slice_len; lia).
  rewrite le_unle by (rewrite slice_length by lia; reflexivity).
  rewrite <- (slice_split b 36 1992 20) || (change 2028 with (36 + 1992); rewrite <- (slice_split b 36 1992 20)).
  change 36 with (28 + 8); rewrite <- (slice_split b 28 8).
  change 28 with (20 + 8); rewrite <- (slice_split b 20 8).
  change (slice b 20 ?x) with (slice b (0 + 20) x). rewrite <- (slice_split b 0 20).
  apply slice_full. rewrite H. reflexivity.
Qed.

Lemma volume_de_wf b : len b = 2048 -> volume_wf (volume_de b).
Proof.
  intros H. unfold volume_wf, volume_de. cbn [v_magic0 v_root v_filetime v_unused v_magic1].
  ssplit; try (apply slice_len; lia).
  - apply region_de_wf. apply slice_len; lia.
  - apply (unle_bound_n _ 8); [apply slice_len; lia | vm_compute; reflexivity].
Qed.

Lemma volume_new_wf r : region_wf r -> volume_wf (volume_new r).
Proof. intros H. unfold volume_wf, volume_new. cbn [v_magic0 v_root v_filetime v_unused v_magic1]. ssplit; auto; try reflexivity. Qed.

Lemma volume_valid_iff v : volume_is_valid v = true <-> v_magic0 v = VOLUME_HEADER_MAGIC /\ v_magic1 v = VOLUME_HEADER_MAGIC.
Proof. unfold volume_is_valid. rewrite Bool.andb_true_iff, !bytes_eqb_spec. tauto. Qed.

(** ** Directory entries *)
Definition ddata_wf (d : ddata) : Prop := region_wf (d_region d) /\ d_attrs d < 256 /\ d_namelen d < 256.
Definition dnode_wf (d : dnode) : Prop := d_left d < 65536 /\ d_right d < 65536 /\ ddata_wf (d_dirent d).

Lemma dnode_ser_len d : len (dnode_ser d) = 14.
Proof. unfold dnode_ser, ddata_ser. rewrite !len_app, !le_len, region_ser_len. reflexivity. Qed.

Lemma dnode_de_ser d : dnode_wf d -> dnode_de (dnode_ser d) = d.
Proof.
  intros (H1 & H2 & H3 & H4 & H5). unfold dnode_de, dnode_ser, ddata_ser.
  pose proof (region_ser_len (d_region (d_dirent d))) as L3. pose proof (le_len 2 (d_left d)) as L1.
  pose proof (le_len 2 (d_right d)) as L2. pose proof (le_len 1 (d_attrs (d_dirent d))) as L4.
  pose proof (le_len 1 (d_namelen (d_dirent d))) as L5.
  set (p1 := le 2 (d_left d)) in *. set (p2 := le 2 (d_right d)) in *. set (p3 := region_ser _) in *.
  set (p4 := le 1 (d_attrs _)) in *. set (p5 := le 1 (d_namelen _)) in *.
  rewrite slice_prefix by auto.
  rewrite (slice_mid p1 p2) by lia.
  replace (p1 ++ p2 ++ p3 ++ p4 ++ p5) with ((p1 ++ p2) ++ p3 ++ p4 ++ p5) by (rewrite <- !app_assoc; reflexivity).
  rewrite (slice_mid (p1 ++ p2) p3) by (rewrite ?len_app; lia).
  replace ((p1 ++ p2) ++ p3 ++ p4 ++ p5) with ((p1 ++ p2 ++ p3) ++ p4 ++ p5) by (rewrite <- !app_assoc; reflexivity).
  rewrite (slice_mid (p1 ++ p2 ++ p3) p4) by (rewrite ?len_app; lia).
  replace ((p1 ++ p2 ++ p3) ++ p4 ++ p5) with ((p1 ++ p2 ++ p3 ++ p4) ++ p5) by (rewrite <- !app_assoc; reflexivity).
  rewrite (slice_end (p1 ++ p2 ++ p3 ++ p4) p5) by (rewrite ?len_app; lia).
  unfold p1, p2, p3, p4, p5. rewrite region_de_ser by auto. rewrite !unle_le2, !unle_le1 by assumption.
  destruct d as [? ? []]; reflexivity.
Qed.

Lemma dnode_ser_de b : len b = 14 -> dnode_ser (dnode_de b) = b.
Proof.
  intros H. unfold dnode_ser, ddata_ser, dnode_de. cbn [d_left d_right d_dirent d_region d_attrs d_namelen].
  rewrite region_ser_de by (apply slice_len; lia).
  rewrite !le_unle by (rewrite slice_length by lia; reflexivity).
  change 13 with (12 + 1); rewrite <- (slice_split b 12 1).
  change 12 with (4 + 8); rewrite <- (slice_split b 4 8).
  change (slice b 4 ?x) with (slice b (2 + 2) x); rewrite <- (slice_split b 2 2).
  change (slice b 2 ?x) with (slice b (0 + 2) x); rewrite <- (slice_split b 0 2).
  apply slice_full. rewrite H. reflexivity.
Qed.

Lemma dnode_de_wf b : len b = 14 -> dnode_wf (dnode_de b).
Proof.
  intros H. unfold dnode_wf, ddata_wf, dnode_de. cbn [d_left d_right d_dirent d_region d_attrs d_namelen].
  ssplit.
  - apply (unle_bound_n _ 2); [apply slice_len; lia | vm_compute; reflexivity].
  - apply (unle_bound_n _ 2); [apply slice_len; lia | vm_compute; reflexivity].
  - apply region_de_wf. apply slice_len; lia.
  - apply (unle_bound_n _ 1); [apply slice_len; lia | vm_compute; reflexivity].
  - apply (unle_bound_n _ 1); [apply slice_len; lia | vm_compute; reflexivity].
Qed.

(** ** Names *)
Lemma encode_decode_byte b : encode_char (decode_byte b) = Some b.
Proof. destruct b; vm_compute; reflexivity. Qed.

Lemma decode_encode_char c b : encode_char c = Some b -> decode_byte b = c.
Proof.
  unfold encode_char. destruct (N.ltb_spec c 0x80) as [H|H].
  - intros E. injection E as <-. unfold decode_byte. rewrite b2n_n2b, N.mod_small by lia.
    destruct (N.ltb_spec c 0x80); [reflexivity|lia].
  - destruct (N.leb_spec 0xA0 c), (N.ltb_spec c 0x100); cbn [andb];
    try (intros E; injection E as <-; unfold decode_byte; rewrite b2n_n2b, N.mod_small by lia;
      destruct (N.ltb_spec c 0x80); [lia|]; destruct (N.ltb_spec c 0xA0); [lia|reflexivity]).
    all: unfold table_1252; cbn [find_index];
      repeat (match goal with |- context[N.eqb ?x ?y] =>
        destruct (N.eqb_spec x y) as [<-|?]; [intros E; injection E as <-; vm_compute; reflexivity|] end); discriminate.
Qed.

Lemma encode_char_iff c b : encode_char c = Some b <-> decode_byte b = c.
Proof. split; [apply decode_encode_char|intros <-; apply encode_decode_byte]. Qed.

Lemma encode_1252_iff s l : encode_1252 s = Some l <-> decode_1252 l = s.
Proof.
  revert l; induction s as [|c s IH]; intros l; cbn [encode_1252].
  - split; [intros E; injection E as <-; reflexivity|]. destruct l; [reflexivity|discriminate].
  - split.
    + destruct (encode_char c) as [b|] eqn:Hc; [|discriminate].
      destruct (encode_1252 s) as [bs|] eqn:Hs; [|discriminate]. intros E; injection E as <-.
      cbn. f_equal; [apply decode_encode_char; auto|]. apply IH; auto.
    + destruct l as [|b l]; [discriminate|]. cbn. intros E; injection E as Hb Hl.
      apply encode_char_iff in Hb. rewrite Hb. apply IH in Hl. rewrite Hl. reflexivity.
Qed.

Lemma decode_length l : length (decode_1252 l) = length l.
Proof. apply map_length. Qed.

Lemma encode_length s l : encode_1252 s = Some l -> length l = length s.
Proof. intros H. apply encode_1252_iff in H. rewrite <- H, decode_length. reflexivity. Qed.

Lemma utf8_len_cons c s : utf8_len (c :: s) = utf8_char_len c + utf8_len s.
Proof. reflexivity. Qed.

Lemma utf8_len_ge s : len s <= utf8_len s.
Proof.
  induction s as [|c s IH]; [apply N.le_refl|]. rewrite len_cons, utf8_len_cons.
  unfold utf8_char_len. destruct (c <? 128), (c <? 2048), (c <? 65536); lia.
Qed.

Lemma encode_name_ok x bs : utf8_len (x_name x) < 256 ->
  (encode_name x = Ok bs <-> decode_1252 bs = x_name x).
Proof.
  intros Hl. unfold encode_name. destruct (encode_1252 (x_name x)) as [l|] eqn:E.
  - pose proof (encode_length _ _ E) as Hlen. pose proof (utf8_len_ge (x_name x)) as Hu. unfold len in *.
    destruct (N.ltb_spec (N.of_nat (length l)) 256); [|lia].
    apply encode_1252_iff in E. split; [intros H1; injection H1 as <-; auto|].
    intros H1. f_equal. rewrite <- H1 in E. apply encode_1252_iff in H1.
    apply encode_1252_iff in E. rewrite E in H1 || idtac.
    assert (Hx : encode_1252 (decode_1252 bs) = Some bs) by (apply encode_1252_iff; reflexivity). congruence.
  - split; [discriminate|]. intros H. apply encode_1252_iff in H. congruence.
Qed.

Lemma encode_name_len x bs : encode_name x = Ok bs -> len bs < 256.
Proof.
  unfold encode_name. destruct (encode_1252 _) as [l|]; [|discriminate].
  destruct (N.ltb_spec (len l) 256); [|discriminate]. intros E; injection E as <-; auto.
Qed.

Lemma encode_name_err x e : encode_name x = Err e -> e = WStringEncodingError.
Proof. unfold encode_name. destruct (encode_1252 _); [destruct (len _ <? 256)|]; congruence. Qed.

Lemma pad4_spec n : n <= pad4 n /\ pad4 n < n + 4 /\ pad4 n mod 4 = 0.
Proof.
  unfold pad4. destruct (N.ltb_spec 0 (n mod 4)) as [H|H].
  - pose proof (N.mod_lt n 4). ssplit; lia.
  - lia.
Qed.

(** ** The name order *)
Lemma cmp_upper a b : cmp_ignore_case_utf8 a b = lex_cmp N.compare (map to_ascii_uppercase a) (map to_ascii_uppercase b).
Proof. revert b; induction a as [|x a IH]; intros [|y b]; cbn; auto. rewrite IH. reflexivity. Qed.

Lemma lex_cmp_opp {A} (cmp : A -> A -> comparison) :
  (forall x y, cmp y x = CompOpp (cmp x y)) -> forall a b, lex_cmp cmp b a = CompOpp (lex_cmp cmp a b).
Proof.
  intros H. induction a as [|x a IH]; intros [|y b]; cbn; auto.
  rewrite H. destruct (cmp x y); cbn; auto.
Qed.

Lemma lex_cmp_eq {A} (cmp : A -> A -> comparison) :
  (forall x y, cmp x y = Eq <-> x = y) -> forall a b, lex_cmp cmp a b = Eq <-> a = b.
Proof.
  intros H. induction a as [|x a IH]; intros [|y b]; cbn; try (split; congruence).
  destruct (cmp x y) eqn:E.
  - apply H in E. subst. rewrite IH. split; congruence.
  - split; [discriminate|]. intros E'; injection E' as -> ->.
    assert (cmp y y = Eq) by (apply H; auto). congruence.
  - split; [discriminate|]. intros E'; injection E' as -> ->.
    assert (cmp y y = Eq) by (apply H; auto). congruence.
Qed.

Lemma lex_cmp_trans {A} (cmp : A -> A -> comparison) :
  (forall x y, cmp x y = Eq <-> x = y) ->
  (forall x y z, cmp x y = Lt -> cmp y z = Lt -> cmp x z = Lt) ->
  forall a b c, lex_cmp cmp a b = Lt -> lex_cmp cmp b c = Lt -> lex_cmp cmp a c = Lt.
Proof.
  intros He Ht. induction a as [|x a IH]; intros [|y b] [|z c]; cbn; try discriminate; auto.
  destruct (cmp x y) eqn:Exy, (cmp y z) eqn:Eyz; try discriminate; intros H1 H2.
  - apply He in Exy, Eyz. subst. assert (cmp z z = Eq) as -> by (apply He; auto). eapply IH; eauto.
  - apply He in Exy. subst. rewrite Eyz. auto.
  - apply He in Eyz. subst. rewrite Exy. auto.
  - rewrite (Ht _ _ _ Exy Eyz). auto.
Qed.

Lemma cmp_ic_opp a b : cmp_ignore_case_utf8 b a = CompOpp (cmp_ignore_case_utf8 a b).
Proof. rewrite !cmp_upper. apply lex_cmp_opp. intros. apply N.compare_antisym. Qed.

Lemma cmp_ic_eq a b : cmp_ignore_case_utf8 a b = Eq <-> map to_ascii_uppercase a = map to_ascii_uppercase b.
Proof. rewrite cmp_upper. apply lex_cmp_eq. apply N.compare_eq_iff. Qed.

Lemma cmp_ic_trans a b c : cmp_ignore_case_utf8 a b = Lt -> cmp_ignore_case_utf8 b c = Lt -> cmp_ignore_case_utf8 a c = Lt.
Proof.
  rewrite !cmp_upper. apply lex_cmp_trans; [apply N.compare_eq_iff|].
  intros x y z. rewrite !N.compare_lt_iff. lia.
Qed.

Lemma str_cmp_opp a b : str_cmp b a = CompOpp (str_cmp a b).
Proof. apply lex_cmp_opp. intros. apply N.compare_antisym. Qed.
Lemma str_cmp_eq a b : str_cmp a b = Eq <-> a = b.
Proof. apply lex_cmp_eq. apply N.compare_eq_iff. Qed.
Lemma str_cmp_trans a b c : str_cmp a b = Lt -> str_cmp b c = Lt -> str_cmp a c = Lt.
Proof. apply lex_cmp_trans; [apply N.compare_eq_iff|]. intros x y z. rewrite !N.compare_lt_iff. lia. Qed.
