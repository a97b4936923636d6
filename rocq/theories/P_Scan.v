(** The sector scan of a table with the layout of the writer (C18). *)
From Verif Require Import M_Base M_Util M_Layout M_Avl M_Sector M_Dirtab M_Read S_Avl S_Codec S_Table S_Read.
From Verif Require Import P_Base P_Codec P_Layout P_Place P_Dirtab P_Table P_Read.
From Coq Require Import Init.Byte Lia.
Local Open Scope N_scope.

Lemma skipn_skipn {A} (l : list A) a b : skipn a (skipn b l) = skipn (b + a) l.
Proof. revert l. induction b as [|b IH]; intros l; [reflexivity|]. destruct l; [rewrite !skipn_nil; reflexivity|]. cbn. apply IH. Qed.

Lemma slice_slice {A} (l : list A) a n b k : b + k <= n -> slice (slice l a n) b k = slice l (a + b) k.
Proof.
  intros H. unfold slice. rewrite skipn_firstn_comm, skipn_skipn, firstn_firstn.
  rewrite Nat.min_l by lia. f_equal. f_equal. lia.
Qed.

(** What the scan returns: offsets are relative to the sector. *)
Definition in_sector (e : dentry) : dentry := mkDentry (e_node e) (e_name e) (e_offset e mod 2048).

Section Scan.
Variables (d : dev) (sec : N) (b : list byte) (K : N).
Hypothesis HLaw : lawful d.
Hypothesis Hlen : len b = 2048 * K.
Hypothesis Hv : forall o n, o + n <= len b -> d (2048 * sec + o) n = Ok (slice b o n).

Definition blank (a c : N) : Prop := forall i, a <= i < c -> nth_error b (N.to_nat i) = Some xff.

Inductive lay : N -> list dentry -> Prop :=
| lay_nil a : blank a (len b) -> lay a []
| lay_cons a l e es : l = pad4 (14 + d_namelen (d_dirent (e_node e))) -> plen_ok l ->
    e_offset e = 2048 * sec + anext a l -> anext a l + l <= len b -> stored d e -> blank a (anext a l) ->
    lay (anext a l + l) es -> lay a (e :: es).

Lemma blank_slice a c n : blank a c -> a + n <= c -> slice b a n = fill n xff.
Proof.
  intros H Hn. assert (G : forall k j, N.of_nat k + j <= c - a -> firstn k (skipn (N.to_nat (a + j)) b) = repeat xff k).
  { induction k as [|k IH]; intros j Hk; [reflexivity|].
    assert (E : skipn (N.to_nat (a + j)) b = xff :: skipn (N.to_nat (a + (j + 1))) b).
    { specialize (H (a + j) ltac:(lia)). replace (N.to_nat (a + (j + 1))) with (S (N.to_nat (a + j))) by lia.
      revert H. generalize (N.to_nat (a + j)) b. clear. induction n as [|n IH]; intros [|x l] H; try discriminate; cbn in *.
      - injection H as ->. reflexivity.
      - apply IH. exact H. }
    rewrite E. cbn [firstn repeat]. f_equal. apply IH. lia. }
  unfold slice, fill. rewrite <- (G (N.to_nat n) 0 ltac:(lia)), N.add_0_r. reflexivity.
Qed.

(** Position [a] in the table. *)
Record at_pos (a : N) (s : scan) : Prop := {
  ap_end : s_end s = sec + K;
  ap_in : s_sector s < s_end s;
  ap_lo : sec <= s_sector s;
  ap_pos : a = 2048 * (s_sector s - sec) + s_offset s;
  ap_off : s_offset s + 14 < 2048;
  ap_mod : s_offset s mod 4 = 0;
  ap_buf : s_buf s = slice b (2048 * (s_sector s - sec)) 2048
}.
Definition at_or_end (a : N) (s : scan) : Prop := at_pos a s \/ (s_sector s = s_end s /\ len b <= a).

Lemma next_sector_pos k s : s_end s = sec + K -> s_sector s = sec + k -> k < K ->
  exists s', next_sector d s = Ok s' /\ s_end s' = sec + K /\ s_sector s' = sec + (k + 1) /\ s_offset s' = 0 /\ at_or_end (2048 * (k + 1)) s'.
Proof.
  intros He Hs Hk. unfold next_sector. rewrite Hs, He. destruct (N.leb_spec (sec + K) (sec + k + 1)) as [H|H].
  - eexists. ssplit; [reflexivity|reflexivity|cbn; lia|reflexivity|]. right. cbn. split; lia.
  - unfold SECTOR_SIZE. replace ((sec + k + 1) * 2048) with (2048 * sec + 2048 * (k + 1)) by lia. rewrite Hv by lia. cbn [io map_err bind].
    eexists. ssplit; [reflexivity|reflexivity|cbn; lia|reflexivity|]. left. constructor; cbn [s_end s_sector s_offset s_buf]; try lia.
    f_equal. lia.
Qed.

(** Moving on over blank bytes. *)
Lemma lay_forward a c es : lay a es -> a <= c -> (forall e es', es = e :: es' -> forall l, plen_ok l -> 16 <= l -> e_offset e = 2048 * sec + anext a l -> anext a l = anext c l /\ c <= anext a l) -> lay c es.
Proof.
  intros H Hc Hn. inversion H as [? H1|? l e es' H1 H2 H3 H4 H5 H6 H7]; subst.
  - constructor. intros i Hi. apply H1. lia.
  - assert (H16 : 16 <= pad4 (14 + d_namelen (d_dirent (e_node e)))).
    { pose proof (pad4_spec (14 + d_namelen (d_dirent (e_node e)))). lia. }
    destruct (Hn e es' eq_refl _ H2 H16 H3) as (E1 & E2).
    econstructor; [reflexivity|exact H2| | |exact H5| |]; rewrite <- E1; auto.
    intros i Hi. apply H6. lia.
Qed.

Lemma deserialized e q : stored d e -> e_offset e = 2048 * sec + q -> q + 14 + d_namelen (d_dirent (e_node e)) <= len b ->
  forall off, deserialize_dirent_node (slice b q 14) off = Some (mkDentry (e_node e) (fill 256 x00) off)
    /\ with_name (mkDentry (e_node e) (fill 256 x00) off) (slice b (q + 14) (d_namelen (d_dirent (e_node e)))) = mkDentry (e_node e) (e_name e) off.
Proof.
  intros Hst He Hb off. pose proof (proj2 (read_dirent_iff d _ e HLaw) (conj Hst eq_refl)) as Hr. unfold read_dirent in Hr. rewrite He, Hv in Hr by lia. cbn [io map_err bind] in Hr.
  unfold deserialize_dirent_node in *. destruct (_ || _); [discriminate|]. cbn [e_node] in Hr.
  assert (En : dnode_de (slice b q 14) = e_node e).
  { destruct (io _) as [name| | |] in Hr; cbn [bind] in Hr; try discriminate. injection Hr as Hr. rewrite <- Hr. reflexivity. }
  rewrite En in *. split; [reflexivity|]. rewrite <- N.add_assoc, Hv in Hr by lia. cbn [io map_err bind] in Hr. injection Hr as Hr.
  unfold with_name in *. cbn [e_node e_name e_offset] in *. f_equal. exact (f_equal e_name Hr).
Qed.

(** One call of [next_entry] on the way. *)
Lemma next_here fuel a s e es : at_pos a s -> lay a (e :: es) -> anext a (pad4 (14 + d_namelen (d_dirent (e_node e)))) = a ->
  exists s' a', next_loop (S fuel) d s = Ok (Some (in_sector e), s') /\ s_end s' = sec + K /\ at_or_end a' s' /\ lay a' es.
Proof.
  intros [A1 A2 A3 A4 A5 A6 A7] HL Hn. inversion HL as [|? l ? ? H1 H2 H3 H4 H5 H6 H7]; subst l e0 es0 a0. rewrite Hn in *.
  set (l := pad4 (14 + d_namelen (d_dirent (e_node e)))) in *. set (nl := d_namelen (d_dirent (e_node e))) in *.
  assert (P : 14 + nl <= l < 14 + nl + 4 /\ l mod 4 = 0) by (unfold l; pose proof (pad4_spec (14 + nl)); lia).
  set (k := s_sector s - sec) in *. assert (Hk : s_sector s = sec + k /\ k < K) by lia. clearbody k.
  (* the entry does not cross a sector *)
  assert (Hin : s_offset s + l <= 2048).
  { pose proof (anext_sector a l ltac:(unfold plen_ok in H2; lia)) as X. rewrite Hn in X. lia. }
  cbn [next_loop]. unfold SECTOR_SIZE. destruct (N.ltb_spec (s_offset s + 14) 2048); [|lia]. cbn [rassert bind].
  rewrite A7. rewrite slice_slice by lia. rewrite <- A4.
  destruct (deserialized e a H5 H3) with (off := s_offset s) as (D1 & D2); [unfold nl in *; lia|]. rewrite D1. cbn [e_node]. fold nl. fold nl in D2.
  destruct (N.leb_spec (s_offset s + 14 + nl) 2048); [|lia]. cbn [rassert bind].
  rewrite slice_slice by lia. replace (2048 * k + (s_offset s + 14)) with (a + 14) by lia. rewrite D2.
  assert (Eo : s_offset s + 14 + nl + (4 - (s_offset s + 14 + nl) mod 4) mod 4 = s_offset s + l) by lia. rewrite Eo. clear Eo.
  assert (Es : mkDentry (e_node e) (e_name e) (s_offset s) = in_sector e).
  { unfold in_sector. f_equal. rewrite H3. lia. }
  rewrite Es. destruct (N.leb_spec 2048 (s_offset s + l + 14)) as [Hend|Hgo].
  - destruct (next_sector_pos k (mkScan (s_sector s) (slice b (2048 * k) 2048) (s_offset s + l) (s_end s))) as (s' & E1 & E2 & E3 & E4 & E5); cbn; try lia.
    rewrite E1. cbn [bind]. exists s', (2048 * (k + 1)). ssplit; auto.
    eapply lay_forward; [exact H7|lia|]. intros e2 es2 -> l2 Hl2 Hl3 _. unfold anext.
    assert (Ea : (2048 * (k + 1)) mod 2048 = 0) by lia. rewrite Ea. change (0 <? 0) with false. cbn [andb].
    destruct (N.eq_dec (s_offset s + l) 2048) as [Ex|Ex].
    + assert (Eb : (a + l) mod 2048 = 0) by lia. rewrite Eb. change (0 <? 0) with false. cbn [andb]. lia.
    + assert (Eb : (a + l) mod 2048 = s_offset s + l) by lia. rewrite Eb.
      destruct (N.ltb_spec 0 (s_offset s + l)), (N.ltb_spec 2048 (s_offset s + l + l2)); cbn [andb]; lia.
  - cbn [bind]. eexists _, (a + l). split; [reflexivity|]. cbn [s_end]. ssplit; auto. left. constructor; cbn [s_end s_sector s_offset s_buf]; try lia.
    f_equal. lia.
Qed.

Lemma probe_blank s a c : at_pos a s -> blank a c -> a + 14 <= c -> slice (s_buf s) (s_offset s) 14 = fill 14 xff.
Proof.
  intros [A1 A2 A3 A4 A5 A6 A7] Hb Hc. rewrite A7, slice_slice by lia. rewrite <- A4. eapply blank_slice; eauto.
Qed.

Lemma next_blank fuel s a c : at_pos a s -> blank a c -> a + 14 <= c ->
  next_loop (S fuel) d s = (if s_sector s + 1 <? s_end s then let* s := next_sector d s in next_loop fuel d s else Ok (None, s)).
Proof.
  intros HA Hb Hc. pose proof (probe_blank s a c HA Hb Hc) as Hp. destruct HA as [A1 A2 A3 A4 A5 A6 A7].
  cbn [next_loop]. unfold SECTOR_SIZE. destruct (N.ltb_spec (s_offset s + 14) 2048); [|lia]. cbn [rassert bind]. rewrite Hp.
  rewrite (proj2 (deserialize_none _ _)) by auto. reflexivity.
Qed.

Lemma next_some fuel a s e es : at_pos a s -> lay a (e :: es) ->
  exists s' a', next_loop (S (S fuel)) d s = Ok (Some (in_sector e), s') /\ s_end s' = sec + K /\ at_or_end a' s' /\ lay a' es.
Proof.
  intros HA HL. set (l := pad4 (14 + d_namelen (d_dirent (e_node e)))).
  destruct (N.eq_dec (anext a l) a) as [E|E]; [apply (next_here (S fuel) a s e es HA HL E)|].
  inversion HL as [|? l' ? ? H1 H2 H3 H4 H5 H6 H7]; subst l' e0 es0 a0. fold l in H2, H3, H4, H6, H7.
  pose proof HA as [A1 A2 A3 A4 A5 A6 A7]. set (k := s_sector s - sec) in *. assert (Hk : s_sector s = sec + k /\ k < K) by lia. clearbody k.
  assert (Eq : anext a l = 2048 * (k + 1)).
  { unfold anext in E |- *. destruct (N.ltb_spec 0 (a mod 2048)), (N.ltb_spec 2048 (a mod 2048 + l)); cbn [andb] in *; lia. }
  rewrite (next_blank (S fuel) s a (anext a l) HA H6) by lia.
  assert (Hk1 : k + 1 < K) by (unfold plen_ok in H2; lia).
  destruct (N.ltb_spec (s_sector s + 1) (s_end s)); [|lia].
  destruct (next_sector_pos k s) as (s' & E1 & E2 & E3 & E4 & E5); try lia. rewrite E1. cbn [bind].
  destruct E5 as [E5|(E5 & _)]; [|lia].
  assert (HL' : lay (2048 * (k + 1)) (e :: es)).
  { assert (Ea : anext (2048 * (k + 1)) l = 2048 * (k + 1)).
    { unfold anext. destruct (N.ltb_spec 0 ((2048 * (k + 1)) mod 2048)); [lia|reflexivity]. }
    econstructor; [reflexivity|exact H2| | |exact H5| |]; fold l; rewrite ?Ea, ?Eq in *; auto. intros i Hi. lia. }
  apply (next_here fuel _ s' e es E5 HL'). fold l. unfold anext. destruct (N.ltb_spec 0 ((2048 * (k + 1)) mod 2048)); [lia|reflexivity].
Qed.

Lemma next_none n : forall a s fuel, at_pos a s -> lay a [] -> s_end s - s_sector s = N.of_nat n -> (n < fuel)%nat ->
  exists s', next_loop fuel d s = Ok (None, s').
Proof.
  induction n as [|n IH]; intros a s fuel HA HL Hn Hf; [destruct HA; lia|]. destruct fuel as [|fuel]; [lia|].
  inversion HL as [? Hb|]; subst. pose proof HA as [A1 A2 A3 A4 A5 A6 A7].
  rewrite (next_blank fuel s a (len b) HA Hb) by lia.
  destruct (N.ltb_spec (s_sector s + 1) (s_end s)) as [Hlt|Hge]; [|eauto].
  destruct (next_sector_pos (s_sector s - sec) s) as (s' & E1 & E2 & E3 & E4 & E5); try lia. rewrite E1. cbn [bind].
  destruct E5 as [E5|(E5 & _)]; [|lia].
  eapply IH; [exact E5| |lia|lia]. constructor. intros i Hi. apply Hb. lia.
Qed.

Lemma collect_layout es : forall a s fuel, s_end s = sec + K -> at_or_end a s -> lay a es -> (length es + N.to_nat K + 2 < fuel)%nat ->
  collect_scan fuel d s = Ok (map in_sector es).
Proof.
  induction es as [|e es IH]; intros a s fuel He HA HL Hf; (destruct fuel as [|fuel]; [lia|]); cbn [collect_scan map]; unfold next_entry.
  - destruct HA as [HA|(HA & _)].
    + pose proof (ap_in _ _ HA). destruct (N.leb_spec (s_end s) (s_sector s)); [lia|].
      pose proof (ap_lo _ _ HA).
      destruct (next_none (N.to_nat (s_end s - s_sector s)) a s (S fuel) HA HL) as (s' & ->); [lia|cbn in Hf; lia|]. reflexivity.
    + rewrite HA. destruct (N.leb_spec (s_end s) (s_end s)); [|lia]. reflexivity.
  - inversion HL as [|? l ? ? H1 H2 H3 H4 H5 H6 H7]; subst.
    destruct HA as [HA|(_ & HA)].
    + pose proof (ap_in _ _ HA). destruct (N.leb_spec (s_end s) (s_sector s)); [lia|].
      destruct fuel as [|fuel]; [lia|].
      destruct (next_some fuel a s e es HA HL) as (s' & a' & -> & E2 & E3 & E4). cbn [bind].
      rewrite (IH a' s' (S fuel) E2 E3 E4) by (cbn in Hf; lia). reflexivity.
    + pose proof (anext_ge a (pad4 (14 + d_namelen (d_dirent (e_node e))))). unfold plen_ok in H2. lia.
Qed.

Lemma scan_layout sz es : 0 < K -> (sz + 2047) / 2048 = K -> lay 0 es ->
  returns (fun fuel => scan_all fuel d (mkRegion sec sz)) (Ok (map in_sector es)).
Proof.
  intros HK Hsz HL. exists (S (length es + N.to_nat K + 2)). intros fuel Hf. unfold scan_all, scan_dirent_tree, region_is_empty. cbn [r_size r_sector].
  destruct (N.eqb_spec sz 0) as [->|Hz]; [change ((0 + 2047) / 2048) with 0 in Hsz; lia|].
  unfold region_offset. cbn [r_size r_sector]. destruct (N.leb_spec sz 0); [lia|]. cbn [bind].
  rewrite Hsz. replace (SECTOR_SIZE * sec + 0) with (2048 * sec + 0) by (unfold SECTOR_SIZE; lia). rewrite Hv by lia. cbn [io map_err bind].
  apply (collect_layout es 0 _ fuel); [reflexivity| |exact HL|lia]. left. constructor; cbn [s_end s_sector s_offset s_buf]; try lia. f_equal. lia.
Qed.
End Scan.
