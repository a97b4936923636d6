(** The sector-linear device (C37, C38). *)
From Verif Require Import M_Base M_Util M_Layout M_Avl M_Sector M_Dirtab M_Read M_Img M_Dev M_Trie M_Xfs M_Lin.
From Verif Require Import S_Avl S_Codec S_Table S_Read S_Img S_Dev S_Lin.
From Verif Require Import P_Base P_Codec P_Place P_Dirtab P_Table P_Find P_Read P_Witness P_Map P_Tree P_Tabs P_Scan P_Disk P_Plan P_Pack P_Run P_Bytes P_Image P_File P_Back P_Packed P_Param P_More P_Geom P_Dev.
From Coq Require Import Init.Byte Permutation Sorted Lia.
Local Open Scope N_scope.

(** ** The map *)
Definition lsorted (s : lin) : Prop := StronglySorted (fun a b => fst a < fst b) s.
Definition full (b : block) : Prop := b <> BEmpty.

Lemma lin_len_cons x y s : lin_len (x :: y :: s) = lin_len (y :: s).
Proof.
  unfold lin_len. cbn [rev]. destruct (rev s ++ [y]) as [|z l] eqn:E; [destruct (rev s); discriminate|]. reflexivity.
Qed.
Lemma lin_len_one k b : lin_len [(k, b)] = k * 2048 + match b with BEmpty => 0 | _ => 2048 end.
Proof. reflexivity. Qed.

Lemma lin_len_ge s : lsorted s -> forall k b, In (k, b) s -> 2048 * k <= lin_len s.
Proof.
  induction s as [|[k0 b0] s IH]; intros Hs k b Hin; [destruct Hin|]. inversion Hs as [|? ? Hs' HF]; subst.
  destruct s as [|[k1 b1] s].
  - destruct Hin as [[= <- <-]|[]]. rewrite lin_len_one. lia.
  - rewrite lin_len_cons. destruct Hin as [[= <- <-]|Hin]; [|eauto].
    inversion HF as [|? ? H1 _]; subst. cbn in H1. specialize (IH Hs' k1 b1 (or_introl eq_refl)). lia.
Qed.

Lemma lin_get_none s : forall k, Forall (fun e => k < fst e) s -> lin_get k s = None.
Proof. destruct s as [|[k0 b0] s]; intros k H; auto. inversion H as [|? ? H1 _]; subst. cbn in *. destruct (N.compare_spec k k0); auto; lia. Qed.

Lemma insert_spec k b : full b -> forall s, lsorted s -> lin_get k s = None ->
  exists s', lin_insert k b s = (s', None) /\ lsorted s'
    /\ (forall k', lin_get k' s' = if k' =? k then Some b else lin_get k' s)
    /\ lin_len s' = N.max (lin_len s) (2048 * (k + 1))
    /\ (forall P : N * block -> Prop, P (k, b) -> Forall P s -> Forall P s').
Proof.
  intros Hb. induction s as [|[k0 b0] s IH]; intros Hs Hn; cbn [lin_insert].
  - eexists. split; [reflexivity|]. ssplit.
    + repeat constructor.
    + intros k'. cbn. destruct (N.compare_spec k' k), (N.eqb_spec k' k); try lia; auto.
    + rewrite lin_len_one. change (lin_len []) with 0. unfold full in Hb. destruct b; try congruence; lia.
    + intros P H _. repeat constructor; auto.
  - cbn in Hn. destruct (N.compare_spec k k0) as [E|E|E]; [discriminate| |].
    + eexists. split; [reflexivity|]. ssplit.
      * inversion Hs as [|? ? Hs' HF]; subst. constructor; auto. constructor; auto. rewrite Forall_forall in HF |- *. intros x Hx. specialize (HF x Hx). cbn in *. lia.
      * intros k'. cbn [lin_get]. destruct (N.compare_spec k' k), (N.eqb_spec k' k); try lia; auto. destruct (N.compare_spec k' k0); try lia; auto.
      * rewrite lin_len_cons. pose proof (lin_len_ge _ Hs k0 b0 (or_introl eq_refl)). lia.
      * intros P H1 H2. constructor; auto.
    + inversion Hs as [|? ? Hs' HF]; subst. destruct (IH Hs' Hn) as (s' & H1 & H2 & H3 & H4 & H5). rewrite H1. eexists. split; [reflexivity|]. ssplit.
      * constructor; [exact H2|]. apply H5; auto.
      * intros k'. cbn [lin_get]. rewrite H3. destruct (N.compare_spec k' k0), (N.eqb_spec k' k); try lia; auto.
      * destruct s' as [|y s']; [specialize (H3 k); rewrite N.eqb_refl in H3; discriminate|]. rewrite lin_len_cons, H4.
        destruct s as [|z s]; [|rewrite lin_len_cons; reflexivity]. change (lin_len []) with 0. rewrite lin_len_one. destruct b0; lia.
      * intros P A1 A2. inversion A2; subst. constructor; auto.
Qed.

(** [s'] is [s] with the blocks [f 0 .. f (n-1)] at the sectors from [s0]. *)
Definition adds (s s' : lin) (s0 n : N) (f : N -> block) : Prop :=
  lsorted s' /\ (forall k, lin_get k s' = if (s0 <=? k) && (k <? s0 + n) then Some (f (k - s0)) else lin_get k s)
  /\ lin_len s' = if n =? 0 then lin_len s else N.max (lin_len s) (2048 * (s0 + n)).

Lemma adds_nil s s0 f : lsorted s -> adds s s s0 0 f.
Proof.
  intros H. split; [exact H|]. split; [|reflexivity]. intros k. destruct (N.leb_spec s0 k); auto. destruct (N.ltb_spec k (s0 + 0)); auto. lia.
Qed.

Lemma adds_cons s s1 s2 s0 n f g b : lsorted s -> full b ->
  (forall k', lin_get k' s1 = if k' =? s0 then Some b else lin_get k' s) -> lin_len s1 = N.max (lin_len s) (2048 * (s0 + 1)) ->
  adds s1 s2 (s0 + 1) n f -> g 0 = b -> (forall j, j < n -> g (j + 1) = f j) -> adds s s2 s0 (n + 1) g.
Proof.
  intros Hs Hb H1 H2 (A1 & A2 & A3) G0 G1. split; [exact A1|]. split.
  - intros k. rewrite A2, H1. destruct (N.leb_spec (s0 + 1) k); cbn [andb].
    + destruct (N.leb_spec s0 k); [|lia]. cbn [andb]. destruct (N.ltb_spec k (s0 + 1 + n)), (N.ltb_spec k (s0 + (n + 1))); try lia.
      * rewrite <- G1 by lia. do 2 f_equal. lia.
      * destruct (N.eqb_spec k s0); [lia|reflexivity].
    + destruct (N.eqb_spec k s0) as [->|].
      * destruct (N.leb_spec s0 s0); [|lia]. cbn [andb]. destruct (N.ltb_spec s0 (s0 + (n + 1))); [|lia]. rewrite N.sub_diag, G0. reflexivity.
      * destruct (N.leb_spec s0 k); [lia|]. reflexivity.
  - rewrite A3, H2. destruct (N.eqb_spec n 0), (N.eqb_spec (n + 1) 0); lia.
Qed.

Definition span (n : N) : N := (n + 2047) / 2048.

(** ** Writes *)
Definition raw_block (b : list byte) (j : N) : block :=
  BRaw (slice b (2048 * j) 2048 ++ fill (2048 - len (slice b (2048 * j) 2048)) x00).

Lemma slice_skip {A} (l : list A) o k n : slice (skipn (N.to_nat k) l) o n = slice l (k + o) n.
Proof.
  unfold slice. f_equal. rewrite N2Nat.inj_add. generalize (N.to_nat k) as a, (N.to_nat o) as c. clear. intros a. revert l.
  induction a as [|a IH]; intros l c; [reflexivity|]. destruct l as [|x l]; [destruct c; reflexivity|]. cbn. apply IH.
Qed.
Lemma skip_len {A} (l : list A) k : len (skipn (N.to_nat k) l) = len l - k.
Proof. unfold len. rewrite skipn_length. lia. Qed.

Lemma write_loop_adds : forall fuel b s0 s, (length b <= fuel)%nat -> lsorted s ->
  (forall k, s0 <= k < s0 + span (len b) -> lin_get k s = None) ->
  exists s', lin_write_loop fuel s0 b s = (s', Ok tt) /\ adds s s' s0 (span (len b)) (raw_block b).
Proof.
  induction fuel as [|fuel IH]; intros b s0 s Hf Hs Hn; destruct b as [|x b];
    try (exists s; split; [reflexivity|apply adds_nil; exact Hs]).
  - cbn in Hf. lia.
  - set (bb := x :: b) in *. assert (Hl : 0 < len bb) by (unfold bb; rewrite len_cons; lia).
    assert (Hsp : span (len bb) = span (len (skipn (N.to_nat 2048) bb)) + 1).
    { rewrite skip_len. unfold span. destruct (N.le_gt_cases 2048 (len bb)); [|replace (len bb - 2048) with 0 by lia]; lia. }
    change (lin_write_loop (S fuel) s0 bb s) with
      (let chunk := slice bb 0 2048 in
       let (s, old) := lin_insert s0 (BRaw (chunk ++ fill (2048 - len chunk) x00)) s in
       match old with Some _ => (s, Panic PUnimplemented) | None => lin_write_loop fuel (s0 + 1) (skipn (N.to_nat 2048) bb) s end).
    cbv zeta. set (blk := BRaw (slice bb 0 2048 ++ fill (2048 - len (slice bb 0 2048)) x00)).
    destruct (insert_spec s0 blk ltac:(discriminate) s Hs (Hn s0 ltac:(lia))) as (s1 & H1 & H2 & H3 & H4 & _). rewrite H1.
    destruct (IH (skipn (N.to_nat 2048) bb) (s0 + 1) s1) as (s2 & E & A).
    + assert (len (skipn (N.to_nat 2048) bb) < len bb) by (rewrite skip_len; lia). unfold len in H. lia.
    + exact H2.
    + intros k Hk. rewrite H3. destruct (N.eqb_spec k s0); [lia|]. apply Hn. lia.
    + exists s2. split; [exact E|]. rewrite Hsp. eapply adds_cons; [exact Hs| |exact H3|exact H4|exact A|reflexivity|]; [discriminate|].
      intros j _. unfold raw_block. rewrite slice_skip. replace (2048 * (j + 1)) with (2048 + 2048 * j) by lia. reflexivity.
Qed.

Lemma file_loop_adds p s0 : forall n i s, lsorted s -> (forall k, s0 + i <= k < s0 + i + N.of_nat n -> lin_get k s = None) ->
  exists s', lin_file_loop n p s0 i s = (s', true) /\ adds s s' (s0 + i) (N.of_nat n) (fun j => BFile p (i + j)).
Proof.
  induction n as [|n IH]; intros i s Hs Hn; cbn [lin_file_loop].
  - exists s. split; [reflexivity|apply adds_nil; exact Hs].
  - destruct (insert_spec (s0 + i) (BFile p i) ltac:(discriminate) s Hs (Hn (s0 + i) ltac:(lia))) as (s1 & H1 & H2 & H3 & H4 & _). rewrite H1.
    destruct (IH (i + 1) s1 H2) as (s2 & E & A).
    { intros k Hk. rewrite H3. destruct (N.eqb_spec k (s0 + i)); [lia|]. apply Hn. lia. }
    exists s2. split; [exact E|]. replace (N.of_nat (S n)) with (N.of_nat n + 1) by lia. rewrite N.add_assoc in A.
    eapply adds_cons; [exact Hs| |exact H3|exact H4|exact A| |]; [discriminate|f_equal; lia|]. intros j _. cbn beta. f_equal. lia.
Qed.

(** ** The blocks describe an image *)
Definition blk_ok (t : ftree) (o : option block) (g : N -> byte) : Prop :=
  match o with
  | None => forall i, i < 2048 -> g i = x00
  | Some (BRaw d) => len d = 2048 /\ forall i, i < 2048 -> get d i = g i
  | Some (BFile p j) => exists b, at_path t p (FFile b) /\ 2048 * j < len b /\ forall i, i < 2048 -> get b (2048 * j + i) = g i
  | Some BEmpty => False
  end.

Lemma blk_ok_ext t o g h : (forall i, i < 2048 -> g i = h i) -> blk_ok t o g -> blk_ok t o h.
Proof.
  intros E. destruct o as [[d|p j|]|]; cbn.
  - intros (H1 & H2). split; auto. intros i Hi. rewrite <- E by auto. auto.
  - intros (b & H1 & H2 & H3). exists b. ssplit; auto. intros i Hi. rewrite <- E by auto. auto.
  - auto.
  - intros H i Hi. rewrite <- E by auto. auto.
Qed.

Definition linv (t : ftree) (s : lin) (img : list byte) : Prop :=
  lsorted s /\ (forall k, blk_ok t (lin_get k s) (fun i => get img (2048 * k + i))) /\ lin_len s = 2048 * span (len img).

Lemma linv_ext t s a b : (forall i, get a i = get b i) -> span (len a) = span (len b) -> linv t s a -> linv t s b.
Proof.
  intros H1 H2 (A & B & C). split; auto. split; [|congruence]. intros k. eapply blk_ok_ext; [|apply B]. intros i _. apply H1.
Qed.

Lemma linv_nil t : linv t [] [].
Proof. split; [constructor|]. split; [|reflexivity]. intros k i _. apply get_past. rewrite (@len_nil byte). lia. Qed.

Lemma linv_add t s s' img s0 b f : linv t s img -> (forall k, s0 <= k < s0 + span (len b) -> lin_get k s = None) ->
  adds s s' s0 (span (len b)) f ->
  (forall j, j < span (len b) -> blk_ok t (Some (f j)) (fun i => get b (2048 * j + i))) ->
  linv t s' (file_write img (s0 * 2048) b).
Proof.
  intros (I1 & I2 & I3) Hn (A1 & A2 & A3) Hf. split; [exact A1|]. split.
  - intros k. rewrite A2. destruct (N.leb_spec s0 k); cbn [andb]; [destruct (N.ltb_spec k (s0 + span (len b)))|].
    + eapply blk_ok_ext; [|apply (Hf (k - s0)); lia]. intros i Hi. cbn beta. rewrite write_get.
      destruct (N.leb_spec (s0 * 2048) (2048 * k + i)); [|lia]. cbn [andb].
      destruct (N.ltb_spec (2048 * k + i) (s0 * 2048 + len b)); [f_equal; lia|].
      specialize (I2 k). rewrite Hn in I2 by lia. cbn in I2. rewrite I2 by auto. apply get_past. lia.
    + eapply blk_ok_ext; [|apply I2]. intros i Hi. cbn beta. rewrite write_get.
      destruct (N.leb_spec (s0 * 2048) (2048 * k + i)); auto. cbn [andb]. destruct (N.ltb_spec (2048 * k + i) (s0 * 2048 + len b)); auto.
      unfold span in *. lia.
    + eapply blk_ok_ext; [|apply I2]. intros i Hi. cbn beta. rewrite write_get.
      destruct (N.leb_spec (s0 * 2048) (2048 * k + i)); [lia|]. reflexivity.
  - rewrite A3, I3, write_len. unfold span. destruct (N.eqb_spec (len b) 0) as [E|E], (N.eqb_spec ((len b + 2047) / 2048) 0) as [E'|E']; try lia.
Qed.

Lemma raw_ok t b j : j < span (len b) -> blk_ok t (Some (raw_block b j)) (fun i => get b (2048 * j + i)).
Proof.
  intros Hj. unfold raw_block. cbn [blk_ok]. rewrite len_app, len_fill, slice_len. split; [lia|]. intros i Hi.
  destruct (N.lt_ge_cases i (len (slice b (2048 * j) 2048))) as [H|H].
  - rewrite get_app_l by auto. apply get_slice. exact Hi.
  - rewrite get_app_r by auto. rewrite get_fill. rewrite slice_len in H. symmetry. apply get_past. lia.
Qed.

(** ** Running the steps *)
Definition aligned (w : N * list byte) : Prop := fst w mod 2048 = 0.
Definition in_range (w : N * list byte) (k : N) : Prop := fst w / 2048 <= k < fst w / 2048 + span (len (snd w)).
Definition sapart (w w' : N * list byte) : Prop := forall k, in_range w k -> in_range w' k -> False.

Lemma adds_other s s' s0 n f k : adds s s' s0 n f -> ~ (s0 <= k < s0 + n) -> lin_get k s' = lin_get k s.
Proof. intros (_ & H & _) Hk. rewrite H. destruct (N.leb_spec s0 k), (N.ltb_spec k (s0 + n)); cbn [andb]; auto. lia. Qed.

Lemma exec_lin (fs : fsys lin) t steps : proper t -> copy_in fs = lin_copy -> copies_ok t steps -> forall s img evs,
  Forall aligned (flat_map (sw t) steps) -> ForallOrdPairs sapart (flat_map (sw t) steps) ->
  linv t s img -> (forall w k, In w (flat_map (sw t) steps) -> in_range w k -> lin_get k s = None) ->
  exists s', exec lin_wdev fs steps (s, evs) = ((s', evs ++ flat_map se steps), Ok tt) /\ linv t s' (writes (flat_map (sw t) steps) img)
    /\ (forall k x, lin_get k s = Some x -> lin_get k s' = Some x)
    /\ (forall p off size, In (SCopy p off size) steps -> 0 < size -> lin_get (off / 2048) s' = Some (BFile p 0)).
Proof.
  intros HP Hcp. induction steps as [|st steps IH]; intros Hok s img evs Hal Hap HI Hab.
  - exists s. cbn. rewrite app_nil_r. ssplit; auto. intros ? ? ? [].
  - inversion Hok as [|? ? Hst Hok']; subst. specialize (IH Hok'). cbn [exec flat_map] in *. rewrite writes_app, app_assoc. pose proof HI as (I1 & _).
    destruct st as [e|off b|p off size]; cbn [exec_step sw se app] in *.
    + unfold pbind at 1. unfold report. cbn [fst snd]. destruct (IH s img (evs ++ [e]) Hal Hap HI Hab) as (s2 & E2 & HI2 & M2 & C2).
      exists s2. ssplit; auto. intros p off size [H|H]; [discriminate|]. apply C2. exact H.
    + inversion Hal as [|? ? Ha Hal']; subst. inversion Hap as [|? ? HF Hap']; subst. unfold aligned in Ha. cbn [fst] in Ha.
      destruct (write_loop_adds (length b) b (off / 2048) s (le_n _) I1) as (s1 & E1 & A1).
      { intros k Hk. apply (Hab (off, b)); [left; reflexivity|]. exact Hk. }
      assert (HI1 : linv t s1 (file_write img off b)).
      { replace off with (off / 2048 * 2048) at 1 by lia. eapply linv_add; [exact HI| |exact A1|intros; apply raw_ok; auto].
        intros k Hk. apply (Hab (off, b)); [left; reflexivity|]. exact Hk. }
      destruct (IH s1 (file_write img off b) evs Hal' Hap' HI1) as (s2 & E2 & HI2 & M2 & C2).
      { intros w k Hw Hk. rewrite (adds_other _ _ _ _ _ k A1); [exact (Hab w k (or_intror Hw) Hk)|]. intros Hk'. rewrite Forall_forall in HF. exact (HF w Hw k Hk' Hk). }
      exists s2. split; [|split; [exact HI2|split]]; cycle 1.
      { intros k x Hx. apply M2. rewrite (adds_other _ _ _ _ _ k A1); [exact Hx|]. intros Hk. rewrite (Hab (off, b) k) in Hx; [discriminate|left; reflexivity|exact Hk]. }
      { intros p' off' size [H|H]; [discriminate|]. apply C2. exact H. }
      unfold pbind at 1. unfold pwrite. cbn [lin_wdev dev_write fst snd]. unfold SECTOR_SIZE. rewrite Ha. cbn [N.eqb].
      rewrite E1. cbn [map_err]. rewrite app_nil_r. exact E2.
    + destruct Hst as (b & Hb & ->). rewrite (file_bytes_at t HP p b Hb) in *.
      inversion Hal as [|? ? Ha Hal']; subst. inversion Hap as [|? ? HF Hap']; subst. unfold aligned in Ha. cbn [fst] in Ha.
      assert (Hsp : len b / 2048 + (if 0 <? len b mod 2048 then 1 else 0) = span (len b)).
      { unfold span. destruct (N.ltb_spec 0 (len b mod 2048)); lia. }
      destruct (file_loop_adds p (off / 2048) (N.to_nat (span (len b))) 0 s I1) as (s1 & E1 & A1).
      { rewrite N2Nat.id, N.add_0_r. intros k Hk. apply (Hab (off, b)); [left; reflexivity|]. exact Hk. }
      rewrite N2Nat.id, N.add_0_r in A1.
      assert (HI1 : linv t s1 (file_write img off b)).
      { replace off with (off / 2048 * 2048) at 1 by lia. eapply linv_add; [exact HI| |exact A1|].
        - intros k Hk. apply (Hab (off, b)); [left; reflexivity|]. exact Hk.
        - intros j Hj. cbn. exists b. rewrite N.add_0_l. ssplit; auto. unfold span in Hj. lia. }
      destruct (IH s1 (file_write img off b) evs Hal' Hap' HI1) as (s2 & E2 & HI2 & M2 & C2).
      { intros w k Hw Hk. rewrite (adds_other _ _ _ _ _ k A1); [exact (Hab w k (or_intror Hw) Hk)|]. intros Hk'. rewrite Forall_forall in HF. exact (HF w Hw k Hk' Hk). }
      exists s2. split; [|split; [exact HI2|split]]; cycle 1.
      { intros k x Hx. apply M2. rewrite (adds_other _ _ _ _ _ k A1); [exact Hx|]. intros Hk. rewrite (Hab (off, b) k) in Hx; [discriminate|left; reflexivity|exact Hk]. }
      { intros p' off' size [H|H]; [|apply C2; exact H]. injection H as <- <- <-. intros Hl. apply M2. destruct A1 as (_ & A1 & _). rewrite A1.
        destruct (N.leb_spec (off / 2048) (off / 2048)); [|lia]. destruct (N.ltb_spec (off / 2048) (off / 2048 + span (len b))); [|unfold span in *; lia].
        cbn [andb]. rewrite N.sub_diag. reflexivity. }
      unfold pbind at 1. unfold pbind at 1. unfold pcopy. cbn [fst snd]. rewrite Hcp. unfold lin_copy, SECTOR_SIZE. rewrite Ha.
      cbn [N.eqb negb]. rewrite Hsp, E1. cbn [map_err pret]. rewrite app_nil_r. exact E2.
Qed.

Lemma steps_sapart m t pls rs : proper t -> laid m t pls rs ->
  ForallOrdPairs sapart (map snd (wl t pls) ++ [(65536, desc_bytes rs)]) /\ Forall aligned (map snd (wl t pls) ++ [(65536, desc_bytes rs)]).
Proof.
  intros HP HL. split.
  - assert (H : forall l, NoDup (map fst l) -> (forall x, In x l -> In x (wl t pls)) -> ForallOrdPairs sapart (map snd l ++ [(65536, desc_bytes rs)])).
    { induction l as [|[q [off b]] l IH]; cbn [map app]; intros Hn Hin; [repeat constructor|].
      inversion Hn as [|? ? N1 N2]; subst. constructor; [|apply IH; auto; intros x Hx; apply Hin; right; auto].
      destruct (wl_reg m t pls rs HP HL q off b (Hin _ (or_introl eq_refl))) as (s & n & R1 & -> & R2 & _).
      apply Forall_forall. intros w Hw. apply in_app_or in Hw as [Hw|[<-|[]]].
      - apply in_map_iff in Hw as ([q' [off' b']] & <- & Hw). cbn [snd].
        destruct (wl_reg m t pls rs HP HL q' off' b' (Hin _ (or_intror Hw))) as (s' & n' & R1' & -> & R2' & _).
        assert (Hne : q <> q') by (intros ->; apply N1; apply (in_map fst) in Hw; exact Hw).
        unfold sapart, in_range, span. cbn [fst snd]. intros k. destruct (reg_disjoint m t pls rs HL _ _ _ _ _ _ R1 R1' Hne); lia.
      - unfold sapart, in_range, span. cbn [fst snd]. intros k. destruct (reg_bounds m t pls rs HL _ _ _ R1).
        change (len (desc_bytes rs)) with 2048. lia. }
    apply H; auto. eapply wl_nodup; eauto.
  - apply Forall_app. split; [|repeat constructor]. apply Forall_map, Forall_forall. intros [q [off b]] Hin.
    destruct (wl_reg m t pls rs HP HL q off b Hin) as (s & n & _ & -> & _). unfold aligned. cbn [fst snd]. apply N.mod_mul. discriminate.
Qed.

Lemma pad_lin t s img evs : linv t s img ->
  exists s', pad_image lin_wdev (s, evs) = ((s', evs), Ok tt) /\ linv t s' (pad img) /\ lin_len s' = len (pad img)
    /\ (forall k x, lin_get k s = Some x -> lin_get k s' = Some x).
Proof.
  intros HI. pose proof HI as (I1 & I2 & I3). unfold pad_image, pbind, M_Img.plen. cbn [lin_wdev dev_len fst snd map_err]. change (32 * 2048) with 65536.
  assert (Hp : forall i, get (pad img) i = get img i).
  { intros i. unfold pad. destruct (N.lt_ge_cases i (len img)); [apply get_app_l; auto|]. rewrite get_app_r, get_fill, get_past by auto. reflexivity. }
  assert (Hl : len (pad img) = len img + padding (len img)) by (unfold pad; rewrite len_app, len_fill; reflexivity).
  unfold padding in Hl. destruct (N.ltb_spec 0 (lin_len s mod 65536)) as [Hm|Hm].
  - set (n := 65536 - lin_len s mod 65536). assert (Hn : len (fill n x00) = n) by apply len_fill.
    assert (Hab : forall k, lin_len s / 2048 <= k < lin_len s / 2048 + span (len (fill n x00)) -> lin_get k s = None).
    { intros k Hk. destruct (lin_get k s) eqn:E; auto. exfalso.
      assert (Hin : forall s, lin_get k s = Some b -> In (k, b) s).
      { clear. induction s as [|[k0 b0] s IH]; cbn; [discriminate|]. destruct (N.compare_spec k k0); try discriminate; [intros [= ->]; left; congruence|right; auto]. }
      apply Hin in E. clear Hin. assert (2048 * k < lin_len s).
      { clear -E I1 I2. assert (Hne : forall k b, In (k, b) s -> full b).
        { intros k0 b0 H0. specialize (I2 k0). assert (G : lin_get k0 s = Some b0); [|rewrite G in I2; intros ->; exact I2].
          clear -H0 I1. induction s as [|[k1 b1] s IH]; [destruct H0|]. inversion I1 as [|? ? S1 S2]; subst. cbn. destruct H0 as [[= <- <-]|H0].
          - rewrite N.compare_refl. reflexivity.
          - rewrite Forall_forall in S2. specialize (S2 _ H0). cbn in S2. destruct (N.compare_spec k0 k1); try lia. auto. }
        clear I2. induction s as [|[k1 b1] s IH]; [destruct E|]. inversion I1 as [|? ? S1 S2]; subst. destruct s as [|y s].
        - destruct E as [[= <- <-]|[]]. rewrite lin_len_one. specialize (Hne k1 b1 (or_introl eq_refl)). unfold full in Hne. destruct b1; try congruence; lia.
        - rewrite lin_len_cons. destruct E as [[= <- <-]|E]; [|apply IH; auto; intros; eapply Hne; right; eauto].
          inversion S2 as [|? ? S3 _]; subst. destruct y as [k2 b2]. cbn in S3. pose proof (lin_len_ge _ S1 k2 b2 (or_introl eq_refl)). lia. }
      lia. }
    destruct (write_loop_adds (length (fill n x00)) (fill n x00) (lin_len s / 2048) s (le_n _) I1 Hab) as (s1 & E1 & A1).
    exists s1. assert (Hmod : lin_len s mod 2048 = 0) by (rewrite I3; lia). split.
    + unfold pwrite. cbn [lin_wdev dev_write fst snd]. unfold SECTOR_SIZE. rewrite Hmod. cbn [N.eqb]. rewrite E1. reflexivity.
    + assert (HI1 : linv t s1 (file_write img (lin_len s / 2048 * 2048) (fill n x00))).
      { eapply linv_add; [exact HI|exact Hab|exact A1|]. intros; apply raw_ok; auto. }
      assert (HL' : len (file_write img (lin_len s / 2048 * 2048) (fill n x00)) = len (pad img)).
      { rewrite write_len, Hn, Hl. unfold n, span in *. destruct (N.eqb_spec (65536 - lin_len s mod 65536) 0); [lia|].
        destruct (N.ltb_spec 0 (len img mod 65536)); lia. }
      split; [|split; [|intros k x Hx; rewrite (adds_other _ _ _ _ _ k A1); [exact Hx|intros Hk; rewrite (Hab k Hk) in Hx; discriminate]]].
      * eapply linv_ext; [| |exact HI1].
        -- intros i. rewrite write_get, Hp. destruct (_ && _) eqn:Eb; auto. rewrite get_fill. symmetry. apply get_past. unfold span in *. lia.
        -- rewrite HL'. reflexivity.
      * destruct HI1 as (_ & _ & H3). rewrite H3, HL'. unfold span. pose proof (padded_multiple img). lia.
  - exists s. split; [reflexivity|]. assert (HL' : lin_len s = len (pad img)).
    { rewrite Hl, I3 in *. unfold span in *. destruct (N.ltb_spec 0 (len img mod 65536)); lia. }
    split; [|split; [exact HL'|auto]]. eapply linv_ext; [|  |exact HI]; [intros i; symmetry; apply Hp|]. rewrite Hl, I3 in *. unfold span in *. lia.
Qed.

(** ** C37 *)
Lemma lin_run' m t img evs : source t -> packs m t img ->
  exists pls rs s evs', laid m t pls rs /\ img = final t pls rs /\
    (forall fs fuel, presents fs t -> copy_in fs = lin_copy -> (length (dirs [] t) < fuel)%nat ->
       create_xdvdfs_image fuel m lin_wdev fs ([], evs) = ((s, evs'), Ok tt))
    /\ lin_len s = len img /\ linv t s img
    /\ (forall p off size, In (SCopy p off size) (all_steps t pls rs) -> 0 < size -> lin_get (off / 2048) s = Some (BFile p 0)).
Proof.
  intros HS Hpk. destruct (packs_steps m t img HS Hpk) as (pls & rs & HL & -> & Hrun). pose proof HS as (Ht & HP & Hs).
  destruct (steps_sapart m t pls rs HP HL) as (Hap & Hal).
  set (fs0 := mkFsys lin (fun _ => Ok []) lin_copy).
  destruct (exec_lin fs0 t (all_steps t pls rs) HP eq_refl (steps_copies m t pls rs HP HL) [] [] evs) as (s1 & E1 & HI1 & M1 & C1); rewrite ?steps_writes; auto.
  { apply linv_nil. }
  rewrite steps_writes in HI1. fold (body t pls rs) in HI1.
  destruct (pad_lin t s1 _ (evs ++ flat_map se (all_steps t pls rs)) HI1) as (s2 & E2 & HI2 & HL2 & M2).
  exists pls, rs, s2, (evs ++ flat_map se (all_steps t pls rs) ++ [EFinishedPacking]). split; [exact HL|]. split; [reflexivity|].
  split; [|split; [exact HL2|split; [exact HI2|intros; apply M2; eapply C1; eauto]]].
  intros fs fuel Hp Hc Hf. rewrite (Hrun _ _ _ _ _ _ Hp) by lia. unfold pbind at 1.
  assert (Hex : forall l x, exec lin_wdev fs l x = exec lin_wdev fs0 l x).
  { clear -Hc. induction l as [|st l IH]; intros x; [reflexivity|]. cbn [exec]. unfold pbind at 1. symmetry. unfold pbind at 1. symmetry. destruct st; cbn [exec_step].
    - destruct (report e x) as [? []]; auto.
    - destruct (pwrite lin_wdev off b x) as [? []]; auto.
    - unfold pbind. unfold pcopy. rewrite Hc. cbn [copy_in fs0]. destruct (lin_copy p (fst x) 0 off size) as [? []]; cbn; auto. }
  rewrite Hex, E1. cbn [finish].
  unfold pbind at 1. rewrite E2. unfold report. cbn [fst snd]. rewrite app_assoc. reflexivity.
Qed.

Lemma lin_run m t img fs evs : source t -> packs m t img -> presents fs t -> copy_in fs = lin_copy ->
  exists s evs', returns (fun fuel => create_xdvdfs_image fuel m lin_wdev fs ([], evs)) ((s, evs'), Ok tt)
    /\ lin_len s = len img /\ linv t s img.
Proof.
  intros HS Hpk Hp Hc. destruct (lin_run' m t img evs HS Hpk) as (pls & rs & s & evs' & _ & _ & H & H1 & H2 & _).
  exists s, evs'. split; [|auto]. exists (S (length (dirs [] t))). intros fuel Hf. apply H; auto.
Qed.

Lemma linv_read t s img fs : linv t s img -> sector_copies fs t -> forall k, exists b, read_sector fs s k = Ok b /\ is_sector img k b.
Proof.
  intros (_ & H & _) Hc k. specialize (H k). unfold read_sector. destruct (lin_get k s) as [[d|p j|]|]; cbn [blk_ok] in H; [| |destruct H|].
  - destruct H as (H1 & H2). rewrite H1. cbn. exists d. split; [reflexivity|]. split; auto.
  - destruct H as (b & H1 & H2 & H3). destruct (Hc p b j H1 H2) as (buf & E & E1 & E2). rewrite E. cbn. exists buf. split; [reflexivity|]. split; [exact E1|].
    intros i Hi. rewrite E2 by auto. apply H3. exact Hi.
  - exists (fill 2048 x00). split; [reflexivity|]. split; [apply len_fill|]. intros i Hi. change byte_at with get. rewrite get_fill, H by auto. reflexivity.
Qed.

Lemma c37_lemma m t img fs evs : source t -> packs m t img -> presents fs t -> sector_copies fs t ->
  exists s evs', returns (fun fuel => compress_layout fuel m fs ([], evs)) ((s, evs'), Ok tt)
    /\ lin_len s = len img /\ forall k, exists b, read_sector fs s k = Ok b /\ is_sector img k b.
Proof.
  intros HS Hpk Hp Hc. destruct (lin_run m t img (lin_fs fs) evs HS Hpk) as (s & evs' & H1 & H2 & H3); [|reflexivity|].
  - intros p cs Hat. exact (Hp p cs Hat).
  - exists s, evs'. ssplit; auto. apply (linv_read t); auto.
Qed.

Lemma std_sector_copies t : proper t -> sector_copies (std_mem_fs t) t.
Proof.
  intros HP p b i Hat Hi. cbn [std_mem_fs copy_in]. unfold std_copy_mem. pose proof Hat as L. apply lookup_at in L; auto. rewrite L.
  destruct (c36_zero_lemma b (fill 2048 x00) (2048 * i) 2048) as (buf & H1 & H2 & H3); [rewrite len_fill; lia|]. rewrite len_fill in H2.
  exists buf. split; [exact H1|]. split; [exact H2|]. intros j Hj. rewrite H3, len_app, len_fill, slice_len.
  destruct (N.leb_spec 0 j); [|lia]. destruct (N.ltb_spec j (0 + (N.min 2048 (len b - 2048 * i) + (2048 - N.min 2048 (len b - 2048 * i))))); [|lia]. cbn [andb].
  rewrite N.sub_0_r. change byte_at with get. destruct (N.lt_ge_cases j (len (slice b (2048 * i) 2048))) as [Hj1|Hj1].
  - rewrite get_app_l by auto. apply get_slice. exact Hj.
  - rewrite get_app_r, get_fill by auto. rewrite slice_len in Hj1. symmetry. apply get_past. lia.
Qed.
