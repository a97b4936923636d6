(** Proofs about the scan of a table by sectors (C33, C119, C120). *)
From Verif Require Import M_Base M_Util M_Layout M_Read S_Codec S_Read S_Sectors P_Base P_Bytes P_Layout P_Codec P_Read P_Term P_Witness.
From Coq Require Import Init.Byte Lia.
From Coq Require Import List.
Local Open Scope N_scope.

Lemma behind_eq e : behind e = (let o := e_offset e + 14 + d_namelen (d_dirent (e_node e)) in o + (4 - o mod 4) mod 4).
Proof. unfold behind. cbv zeta. set (x := e_offset e + 14 + _). clearbody x. pose proof (N.div_mod x 4). pose proof (N.mod_lt x 4).
  assert (H3 : (4 - x mod 4) mod 4 = if x mod 4 =? 0 then 0 else 4 - x mod 4) by (destruct (N.eqb_spec (x mod 4) 0) as [->|K]; [reflexivity|apply N.mod_small; lia]).
  rewrite H3. set (q := x / 4) in *. destruct (N.eqb_spec (x mod 4) 0) as [E|E].
  - replace (x + 3) with (3 + q * 4) by lia. rewrite N.div_add by lia. change (3 / 4) with 0. lia.
  - replace (x + 3) with ((x mod 4 - 1) + (q + 1) * 4) by lia. rewrite N.div_add by lia. rewrite (N.div_small (x mod 4 - 1)) by lia. lia.
Qed.
Lemma behind_mod e : behind e mod 4 = 0.
Proof. unfold behind. rewrite N.mul_comm. apply N.mod_mul. lia. Qed.
Lemma behind_ge e : e_offset e + 14 + d_namelen (d_dirent (e_node e)) <= behind e.
Proof. rewrite behind_eq. cbv zeta. lia. Qed.

(** What one step finds at byte [o] of the sector [b]. *)
Lemma look b o : len b = 2048 -> o + 14 < 2048 ->
  match deserialize_dirent_node (slice b o 14) o with
  | None => blank (slice b o 14)
  | Some e0 =>
      let n := d_namelen (d_dirent (e_node e0)) in
      ~ blank (slice b o 14) /\ e_offset e0 = o
      /\ (o + 14 + n <= 2048 /\ lies_in b o (with_name e0 (slice b (o + 14) n)) \/ 2048 < o + 14 + n /\ crosses b o)
  end.
Proof.
  intros HL Ho. assert (L : len (slice b o 14) = 14) by (apply slice_len; lia).
  destruct (deserialize_dirent_node (slice b o 14) o) as [e0|] eqn:E; [|apply deserialize_none in E; exact E].
  cbv zeta. assert (NB : ~ blank (slice b o 14)) by (intros K; apply (proj2 (deserialize_none _ o)) in K; congruence).
  assert (E' := E). apply deserialize_iff in E' as (_ & _ & E'). split; [exact NB|]. split; [rewrite E'; reflexivity|].
  set (n := d_namelen (d_dirent (e_node e0))). destruct (N.le_gt_cases (o + 14 + n) 2048) as [H|H]; [left|right]; (split; [exact H|]).
  - assert (R : read_dirent (file_dev b) o = Ok (Some (with_name e0 (slice b (o + 14) n)))).
    { unfold read_dirent, file_dev at 1. change (14 =? 0) with false. destruct (N.leb_spec (o + 14) (len b)); [|lia]. cbn [io map_err bind]. rewrite E.
      unfold file_dev. fold n. destruct (N.eqb_spec n 0) as [->|Hn]; [reflexivity|]. destruct (N.leb_spec (o + 14 + n) (len b)); [|lia]. reflexivity. }
    apply read_dirent_iff in R as (R1 & R2); [|apply file_lawful]. split; auto.
  - pose proof (dnode_fields_de _ L) as F. cbv zeta in F. pose proof (dnode_de_wf _ L) as W. unfold dnode_wf, ddata_wf in W. subst e0. cbn [e_node] in *.
    apply (crosses_here b o n); auto; tauto.
Qed.

(** The records are determined. *)
Lemma in_sector_look b o e : len b = 2048 -> lies_in b o e -> exists e0, deserialize_dirent_node (slice b o 14) o = Some e0
  /\ d_namelen (d_dirent (e_node e0)) = d_namelen (d_dirent (e_node e))
  /\ o + 14 + d_namelen (d_dirent (e_node e)) <= 2048 /\ e = with_name e0 (slice b (o + 14) (d_namelen (d_dirent (e_node e)))).
Proof.
  intros HL (Ho & He & HS). pose proof (proj2 (read_dirent_iff (file_dev b) o e (file_lawful b)) (conj HS He)) as R.
  unfold read_dirent, file_dev at 1 in R. change (14 =? 0) with false in R. destruct (N.leb_spec (o + 14) (len b)); [|lia]. cbn [io map_err bind] in R.
  destruct (deserialize_dirent_node (slice b o 14) o) as [e0|] eqn:E; [|discriminate]. exists e0. split; [reflexivity|].
  unfold file_dev in R. destruct (N.eqb_spec (d_namelen (d_dirent (e_node e0))) 0) as [Z|Z].
  - cbn [bind io map_err] in R. injection R as <-. cbn [with_name e_node]. rewrite Z. ssplit; auto; lia.
  - destruct (N.leb_spec (o + 14 + d_namelen (d_dirent (e_node e0))) (len b)) as [K|K]; cbn [bind io map_err] in R; [|discriminate]. injection R as <-. cbn [with_name e_node]. ssplit; auto. lia.
Qed.

Section Run.
Variable d : dev.
Hypothesis HL : lawful d.
Hypothesis HR : real d.

(** The listing from the beginning of sector [s] on. *)
Definition start (s e : N) (fuel : nat) : res rerr (list dentry) :=
  if e <=? s then Ok [] else let* b := io (d (s * SECTOR_SIZE) 2048) in collect_scan fuel d (mkScan s b 0 e).

Lemma next_start s b o e fuel : (let* s' := next_sector d (mkScan s b o e) in collect_scan (S fuel) d s') = start (s + 1) e (S fuel).
Proof.
  unfold next_sector, start. cbn [s_sector s_end s_buf]. destruct (N.leb_spec e (s + 1)); cbn [bind].
  - cbn [collect_scan]. unfold next_entry. cbn [s_end s_sector]. destruct (N.leb_spec e (s + 1)); [|lia]. reflexivity.
  - destruct (d ((s + 1) * SECTOR_SIZE) 2048); reflexivity.
Qed.

Lemma next_stable s : scan_inv s -> s_sector s < s_end s -> s_offset s mod 4 = 0 -> exists n x, forall fuel, (n <= fuel)%nat -> next_loop fuel d s = x.
Proof. intros H1 H2 H3. destruct (next_loop_step d HR _ s H1 H2 H3 eq_refl) as (x & Hx & _). eexists. exists x. intros fuel Hf. apply Hx. exact Hf. Qed.

(** A blank record leads to the next sector. *)
Lemma collect_blank s b o e y : len b = 2048 -> s < e -> o + 14 < 2048 -> blank (slice b o 14) -> returns (start (s + 1) e) y -> returns (fun fuel => collect_scan fuel d (mkScan s b o e)) y.
Proof.
  intros Hb Hs Ho HB (m & Hm). apply (proj2 (deserialize_none _ o)) in HB.
  assert (E1 : forall fuel, next_loop (S fuel) d (mkScan s b o e) = if s + 1 <? e then let* s' := next_sector d (mkScan s b o e) in next_loop fuel d s' else Ok (None, mkScan s b o e)).
  { intros fuel. cbn [next_loop s_offset s_buf s_sector s_end]. unfold SECTOR_SIZE at 1. destruct (N.ltb_spec (o + 14) 2048); [|lia]. cbn [rassert bind]. rewrite HB. reflexivity. }
  destruct (N.ltb_spec (s + 1) e) as [K|K].
  - assert (E2 := next_start s b o e). unfold start in Hm. destruct (N.leb_spec e (s + 1)); [lia|]. unfold next_sector in E1. cbn [s_sector s_end s_buf] in E1. destruct (N.leb_spec e (s + 1)); [lia|].
    destruct (d ((s + 1) * SECTOR_SIZE) 2048) as [b1|x|p|] eqn:Ed; cbn [io map_err bind] in *.
    + destruct (next_stable (mkScan (s + 1) b1 0 e)) as (n & x & Hx); [intros _; cbn; lia|cbn; lia|reflexivity|].
      exists (S (S (Nat.max n m))). intros [|fuel] Hf; [lia|]. rewrite <- (Hm (S fuel)) by lia. cbn [collect_scan]. unfold next_entry. cbn [s_end s_sector]. destruct (N.leb_spec e s); [lia|]. destruct (N.leb_spec e (s + 1)); [lia|].
      rewrite E1, !Hx by lia. reflexivity.
    + exists (S m). intros [|fuel] Hf; [lia|]. rewrite <- (Hm fuel) by lia. cbn [collect_scan]. unfold next_entry. cbn [s_end s_sector]. destruct (N.leb_spec e s); [lia|]. rewrite E1. reflexivity.
    + exists (S m). intros [|fuel] Hf; [lia|]. rewrite <- (Hm fuel) by lia. cbn [collect_scan]. unfold next_entry. cbn [s_end s_sector]. destruct (N.leb_spec e s); [lia|]. rewrite E1. reflexivity.
    + exfalso. eapply HR. exact Ed.
  - exists (S m). intros [|fuel] Hf; [lia|]. rewrite <- (Hm fuel) by lia. unfold start. destruct (N.leb_spec e (s + 1)); [|lia]. cbn [collect_scan]. unfold next_entry. cbn [s_end s_sector]. destruct (N.leb_spec e s); [lia|]. rewrite E1. reflexivity.
Qed.

(** A record comes out. *)
Lemma next_record s b o e x fuel : len b = 2048 -> s < e -> lies_in b o x ->
  next_entry (S fuel) d (mkScan s b o e) = let* s' := (if 2048 <=? behind x + 14 then next_sector d (mkScan s b (behind x) e) else Ok (mkScan s b (behind x) e)) in Ok (Some x, s').
Proof.
  intros Hb Hs HI. pose proof HI as (Ho & He & _). apply (in_sector_look b o x Hb) in HI as (e0 & E0 & E1 & E2 & E3).
  unfold next_entry. cbn [s_end s_sector]. destruct (N.leb_spec e s); [lia|]. cbn [next_loop s_offset s_buf s_sector s_end]. unfold SECTOR_SIZE at 1. destruct (N.ltb_spec (o + 14) 2048); [|lia]. cbn [rassert bind].
  rewrite E0, E1. unfold SECTOR_SIZE. destruct (N.leb_spec (o + 14 + d_namelen (d_dirent (e_node x))) 2048); [|lia]. cbn [rassert bind]. rewrite <- E3.
  rewrite (behind_eq x). cbv zeta. rewrite He. reflexivity.
Qed.

Lemma collect_chain s b e : len b = 2048 -> s < e -> forall o es, chain b o es -> o + 14 < 2048 -> forall y, returns (start (s + 1) e) y ->
  returns (fun fuel => collect_scan fuel d (mkScan s b o e)) (let* rest := y in Ok (es ++ rest)).
Proof.
  intros Hb Hs. induction 1 as [o K|o K HB|o x es HI HC IH]; intros Ho y Hy; [lia| |].
  - replace (let* rest := y in Ok ([] ++ rest)) with y by (destruct y; reflexivity). apply collect_blank; auto.
  - destruct (N.leb_spec 2048 (behind x + 14)) as [K|K].
    + inversion HC as [? K'|? K' |? ? ? (K' & _)]; subst; try lia. destruct Hy as (m & Hm). exists (S (S m)). intros [|[|fuel]] Hf; [lia|lia|].
      cbn [collect_scan]. rewrite (next_record s b o e x) by auto. rewrite (proj2 (N.leb_le _ _) K). rewrite <- (Hm (S fuel)) by lia. rewrite <- (next_start s b (behind x) e).
      destruct (next_sector d (mkScan s b (behind x) e)) as [s'| | |]; cbn [bind]; try reflexivity. 
    + destruct (IH K y Hy) as (m & Hm). exists (S m). intros [|fuel] Hf; [lia|]. cbn [collect_scan]. rewrite (next_record s b o e x) by auto. rewrite (proj2 (N.leb_gt _ _) K). cbn [bind].
      rewrite Hm by lia. destruct y; reflexivity.
Qed.

Lemma collect_crosses s b e : len b = 2048 -> s < e -> forall o, crosses b o -> returns (fun fuel => collect_scan fuel d (mkScan s b o e)) (Panic PAssert).
Proof.
  intros Hb Hs. induction 1 as [o n Ho HB HF Hn Hc|o x HI HC IH].
  - exists 1%nat. intros [|fuel] Hf; [lia|]. cbn [collect_scan]. unfold next_entry. cbn [s_end s_sector]. destruct (N.leb_spec e s); [lia|]. cbn [next_loop s_offset s_buf s_sector s_end]. unfold SECTOR_SIZE at 1. destruct (N.ltb_spec (o + 14) 2048); [|lia]. cbn [rassert bind].
    assert (L : len (slice b o 14) = 14) by (apply slice_len; lia). pose proof (dnode_fields_de _ L) as F. cbv zeta in F. destruct F as (_ & _ & _ & _ & _ & F). pose proof (dnode_de_wf _ L) as W. unfold dnode_wf, ddata_wf in W.
    destruct (deserialize_dirent_node (slice b o 14) o) as [e0|] eqn:E; [|apply deserialize_none in E; contradiction].
    apply deserialize_iff in E as (_ & _ & ->). cbn [e_node].
    assert (En : d_namelen (d_dirent (dnode_de (slice b o 14))) = n).
    { apply field_slice in F, HF. rewrite F in HF. apply (f_equal unle) in HF. change (N.of_nat 1) with 1 in HF. rewrite !unle_le1 in HF by tauto. exact HF. }
    rewrite En. unfold SECTOR_SIZE. destruct (N.leb_spec (o + 14 + n) 2048); [lia|]. reflexivity.
  - assert (K : behind x + 14 < 2048) by (inversion HC as [? ? K|? ? (K & _)]; subst; exact K).
    destruct IH as (m & Hm). exists (S m). intros [|fuel] Hf; [lia|]. cbn [collect_scan]. rewrite (next_record s b o e x) by auto. rewrite (proj2 (N.leb_gt _ _) K). cbn [bind].
    rewrite Hm by lia. reflexivity.
Qed.

Lemma scanned_start n : forall s x, scanned d s n x -> returns (start s (s + N.of_nat n)) x.
Proof.
  induction n as [|n IH]; intros s x H.
  - inversion H; subst. exists 0%nat. intros fuel _. unfold start. destruct (N.leb_spec (s + N.of_nat 0) s); [reflexivity|lia].
  - assert (G : forall y, match d (2048 * s) 2048 with Ok b => returns (fun fuel => collect_scan fuel d (mkScan s b 0 (s + N.of_nat (S n)))) y | Err e => y = Err (IOError e) | Panic p => y = Panic p | OutOfFuel => False end -> returns (start s (s + N.of_nat (S n))) y).
    { intros y Hy. unfold start. destruct (N.leb_spec (s + N.of_nat (S n)) s); [lia|]. change SECTOR_SIZE with 2048. rewrite (N.mul_comm s).
      destruct (d (2048 * s) 2048); cbn [io map_err bind]; [exact Hy| | |contradiction]; subst y; exists 0%nat; reflexivity. }
    apply G. inversion H as [|? ? ? K|? ? ? K|? ? b K1 K2|? ? b es y K1 K2 K3]; subst; rewrite ?K, ?K1; auto.
    + apply collect_crosses; [eapply HL; exact K1|lia|exact K2].
    + apply collect_chain; [eapply HL; exact K1|lia|exact K2|lia|]. replace (s + N.of_nat (S n)) with (s + 1 + N.of_nat n) by lia. apply IH. exact K3.
Qed.

Lemma sector_cases b : len b = 2048 -> forall o, (exists es, chain b o es) \/ crosses b o.
Proof.
  intros Hb o. remember (N.to_nat (2048 - o)) as k eqn:Hk. revert o Hk. induction k as [k IH] using (well_founded_induction Wf_nat.lt_wf). intros o Hk.
  destruct (N.le_gt_cases 2048 (o + 14)) as [Ho|Ho]; [left; exists []; apply chain_full; exact Ho|]. pose proof (look b o Hb Ho) as L.
  destruct (deserialize_dirent_node (slice b o 14) o) as [e0|]; [|left; exists []; apply chain_blank; auto]. cbv zeta in L. destruct L as (_ & _ & [(_ & HI)|(_ & L)]); [|right; exact L].
  set (e := with_name e0 _) in HI. clearbody e. pose proof (behind_ge e) as Hg. pose proof HI as (_ & He & _). destruct (IH (N.to_nat (2048 - behind e)) ltac:(lia) (behind e) eq_refl) as [(es & K)|K].
  - left. exists (e :: es). apply chain_record with (e := e); auto.
  - right. apply crosses_later with e; auto.
Qed.

Lemma scanned_exists n : forall s, exists x, scanned d s n x.
Proof.
  induction n as [|n IH]; intros s; [eexists; apply scanned_end|]. destruct (d (2048 * s) 2048) as [b|e|p|] eqn:E.
  - destruct (sector_cases b (HL _ _ _ E) 0) as [(es & K)|K]; [|eexists; eapply scanned_crosses; eauto]. destruct (IH (s + 1)) as (x & Hx). eexists. eapply scanned_sector; eauto.
  - eexists. eapply scanned_error; eauto.
  - eexists. eapply scanned_panic; eauto.
  - exfalso. eapply HR. exact E.
Qed.

Lemma scan_all_start r fuel : scan_all (S fuel) d r = start (r_sector r) (r_sector r + N.of_nat (table_sectors r)) (S fuel).
Proof.
  unfold scan_all, scan_dirent_tree, start, table_sectors, region_is_empty, region_offset. rewrite N2Nat.id. destruct (N.eqb_spec (r_size r) 0) as [E|E].
  - rewrite E. change ((0 + 2047) / 2048) with 0. destruct (N.leb_spec (r_sector r + 0) (r_sector r)); [|lia]. reflexivity.
  - assert (1 <= (r_size r + 2047) / 2048) by (apply N.div_le_lower_bound; lia). destruct (N.leb_spec (r_sector r + (r_size r + 2047) / 2048) (r_sector r)); [lia|].
    destruct (N.leb_spec (r_size r) 0); [lia|]. cbn [bind]. rewrite N.add_0_r, (N.mul_comm SECTOR_SIZE). destruct (d (r_sector r * SECTOR_SIZE) 2048); reflexivity.
Qed.

Lemma returns_fun {A} (f : nat -> A) x y : returns f x -> returns f y -> x = y.
Proof. intros (n & H1) (m & H2). rewrite <- (H1 (Nat.max n m)) by lia. apply H2. lia. Qed.

Lemma c119_lemma r x : returns (fun fuel => scan_all fuel d r) x <-> scanned d (r_sector r) (table_sectors r) x.
Proof.
  assert (G : forall y, scanned d (r_sector r) (table_sectors r) y -> returns (fun fuel => scan_all fuel d r) y).
  { intros y Hy. apply scanned_start in Hy as (n & Hn). exists (S n). intros [|fuel] Hf; [lia|]. rewrite scan_all_start. apply Hn. lia. }
  split; [|apply G]. intros H. destruct (scanned_exists (table_sectors r) (r_sector r)) as (y & Hy). rewrite (returns_fun _ _ _ H (G y Hy)). exact Hy.
Qed.
End Run.

(** ** C33: when the scan panics *)
Lemma scanned_panics d : calm d -> forall n s p, scanned d s n (Panic p) <->
  p = PAssert /\ exists k b, (k < n)%nat /\ d (2048 * (s + N.of_nat k)) 2048 = Ok b /\ crosses b 0
    /\ forall j, (j < k)%nat -> exists b' es, d (2048 * (s + N.of_nat j)) 2048 = Ok b' /\ chain b' 0 es.
Proof.
  intros HC. assert (NP : forall o n p, d o n <> Panic p) by (intros o n p; destruct (HC o n) as [(? & ->)|(? & ->)]; discriminate).
  induction n as [|n IH]; intros s p; split.
  - intros H. inversion H.
  - intros (_ & k & _ & Hk & _). lia.
  - intros H. inversion H as [|? ? ? K|? ? ? K|? ? b K1 K2|? ? b es x K1 K2 K3 Q1 Q2 Q3]; subst; try discriminate.
    + exfalso. eapply NP. exact K.
    + split; [reflexivity|]. exists 0%nat, b. rewrite N.add_0_r. ssplit; auto; lia.
    + destruct x as [r|?|q|]; try discriminate. cbn [bind] in Q3. injection Q3 as ->. apply IH in K3 as (-> & k & b1 & Hk & B1 & B2 & B3). split; [reflexivity|].
      exists (S k), b1. ssplit; [lia|replace (s + N.of_nat (S k)) with (s + 1 + N.of_nat k) by lia; exact B1|exact B2|]. intros [|j] Hj; [exists b, es; rewrite N.add_0_r; auto|].
      replace (s + N.of_nat (S j)) with (s + 1 + N.of_nat j) by lia. apply B3. lia.
  - intros (-> & k & b & Hk & B1 & B2 & B3). destruct k as [|k].
    + rewrite N.add_0_r in B1. eapply scanned_crosses; eauto.
    + destruct (B3 0%nat ltac:(lia)) as (b' & es & C1 & C2). rewrite N.add_0_r in C1. change (@Panic rerr (list dentry) PAssert) with (let* rest := @Panic rerr (list dentry) PAssert in Ok (es ++ rest)).
      eapply scanned_sector; eauto. apply IH. split; [reflexivity|]. exists k, b. ssplit; [lia|replace (s + 1 + N.of_nat k) with (s + N.of_nat (S k)) by lia; exact B1|exact B2|].
      intros j Hj. replace (s + 1 + N.of_nat j) with (s + N.of_nat (S j)) by lia. apply B3. lia.
Qed.
Lemma calm_real d : calm d -> real d.
Proof. intros H o n. destruct (H o n) as [(? & ->)|(? & ->)]; discriminate. Qed.
Lemma c33_exact d r p : lawful d -> calm d -> (returns (fun fuel => scan_all fuel d r) (Panic p) <->
  p = PAssert /\ exists k b, (k < table_sectors r)%nat /\ d (2048 * (r_sector r + N.of_nat k)) 2048 = Ok b /\ crosses b 0
    /\ forall j, (j < k)%nat -> exists b' es, d (2048 * (r_sector r + N.of_nat j)) 2048 = Ok b' /\ chain b' 0 es).
Proof. intros HL HC. rewrite (c119_lemma d HL (calm_real d HC)). apply scanned_panics. exact HC. Qed.
