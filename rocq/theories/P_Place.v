(** Sector allocation and the placement arithmetic of directory tables. *)
From Verif Require Import M_Base M_Util M_Layout M_Avl M_Sector M_Dirtab P_Base P_Layout S_Avl S_Table.
From Coq Require Import ZifyBool ZifyNat ZifyN Init.Byte.
Local Open Scope N_scope.

(** ** Allocation *)
Lemma sectors_pos n : 0 < sectors n.
Proof. unfold sectors. destruct (N.eqb_spec n 0); lia. Qed.

Lemma sectors_enough n : n <= 2048 * sectors n.
Proof. unfold sectors. destruct (N.eqb_spec n 0); lia. Qed.

Lemma sectors_le n : sectors n <= n / 2048 + 1.
Proof. unfold sectors. destruct (N.eqb_spec n 0); lia. Qed.

Lemma u32_add_ok {E} m a b : a + b < u32_modulus -> @u32_add E m a b = Ok (a + b).
Proof. unfold u32_add. intros H. destruct (N.ltb_spec (a + b) u32_modulus); [auto|lia]. Qed.

Lemma required_spec {E} m n : n < 2048 * (u32_modulus - 1) -> @required_sectors E m n = Ok (sectors n).
Proof.
  intros H. unfold required_sectors, sectors, SECTOR_SIZE. destruct (N.eqb_spec n 0); auto.
  destruct (N.ltb_spec (n / 2048) u32_modulus) as [Hlt|Hge]; [|unfold u32_modulus in *; lia].
  rewrite u32_add_ok.
  - f_equal. destruct (N.ltb_spec 0 (n mod 2048)); lia.
  - unfold u32_modulus in *. destruct (N.ltb_spec 0 (n mod 2048)); lia.
Qed.

Lemma allocate_spec {E} m nf n : nf + sectors n < u32_modulus -> n < 2048 * (u32_modulus - 1) ->
  @allocate_contiguous E m nf n = Ok (nf + sectors n, nf).
Proof.
  intros H1 H2. unfold allocate_contiguous. rewrite required_spec by auto. cbn [bind].
  rewrite u32_add_ok by auto. reflexivity.
Qed.

Lemma required_debug {E} n s : @required_sectors E Debug n = Ok s -> s = sectors n /\ s < u32_modulus.
Proof.
  unfold required_sectors, sectors, SECTOR_SIZE. destruct (N.eqb_spec n 0).
  - intros E1; injection E1 as <-. split; auto. reflexivity.
  - destruct (N.ltb_spec (n / 2048) u32_modulus) as [Hlt|Hge]; [|discriminate].
    unfold u32_add. destruct (N.ltb_spec (n / 2048 + (if 0 <? n mod 2048 then 1 else 0)) u32_modulus); [|discriminate].
    intros E1; injection E1 as <-. split; auto. destruct (N.ltb_spec 0 (n mod 2048)); lia.
Qed.

Lemma allocate_debug {E} nf n r : @allocate_contiguous E Debug nf n = Ok r ->
  r = (nf + sectors n, nf) /\ nf + sectors n < u32_modulus.
Proof.
  unfold allocate_contiguous. intros H. apply bind_ok in H as (s & Hs & H).
  apply required_debug in Hs as (-> & Hs). unfold u32_add in H.
  destruct (N.ltb_spec (nf + sectors n) u32_modulus); [|discriminate]. cbn in H. injection H as <-. auto.
Qed.

Lemma starts_app a b n : starts n (a ++ b) = starts n a ++ starts (n + total a) b.
Proof.
  revert n; induction a as [|x a IH]; intros n; cbn [app starts].
  - unfold total. cbn [fold_right]. rewrite N.add_0_r. reflexivity.
  - rewrite IH. unfold total. cbn [fold_right]. rewrite N.add_assoc. reflexivity.
Qed.
Lemma total_app a b : total (a ++ b) = total a + total b.
Proof. unfold total. induction a as [|x a IH]; cbn [app fold_right]; lia. Qed.
Lemma starts_length n l : length (starts n l) = length l.
Proof. revert n; induction l as [|x l IH]; intros n; cbn; auto. Qed.

(** ** Placement *)
Definition anext (e l : N) : N :=
  if (0 <? e mod 2048) && (2048 <? e mod 2048 + l) then e + (2048 - e mod 2048) else e.

Lemma anext_ge e l : e <= anext e l.
Proof. unfold anext. destruct (_ && _); lia. Qed.

Lemma anext_lt e l : l <= 2048 -> anext e l < e + l \/ anext e l = e.
Proof.
  unfold anext. destruct (N.ltb_spec 0 (e mod 2048)), (N.ltb_spec 2048 (e mod 2048 + l)); cbn [andb]; auto. left. lia.
Qed.

Lemma anext_mod4 e l : e mod 4 = 0 -> anext e l mod 4 = 0.
Proof. unfold anext. destruct (_ && _); auto. lia. Qed.

Lemma anext_sector e l : 0 < l <= 2048 -> anext e l / 2048 = (anext e l + l - 1) / 2048.
Proof.
  intros H. unfold anext. destruct (N.ltb_spec 0 (e mod 2048)), (N.ltb_spec 2048 (e mod 2048 + l)); cbn [andb]; lia.
Qed.

Lemma sector_align_spec {E} m e l : 0 < l <= 2048 -> e + l < 2048 * (u32_modulus - 1) ->
  @sector_align E m e l = Ok (anext e l - e).
Proof.
  intros Hl Hb. unfold sector_align. rewrite !required_spec by lia. cbn [bind]. unfold anext, SECTOR_SIZE.
  assert (Hs : (0 <? e mod 2048) && (sectors e <? sectors (e + l)) = (0 <? e mod 2048) && (2048 <? e mod 2048 + l)).
  { destruct (N.ltb_spec 0 (e mod 2048)); auto. cbn [andb]. unfold sectors.
    destruct (N.eqb_spec e 0); [lia|]. destruct (N.eqb_spec (e + l) 0); [lia|].
    destruct (N.ltb_spec ((e + 2047) / 2048) ((e + l + 2047) / 2048)), (N.ltb_spec 2048 (e mod 2048 + l)); auto; lia. }
  rewrite Hs. clear Hs. destruct (_ && _); f_equal; lia.
Qed.

Fixpoint place (e : N) (ls : list N) : list N :=
  match ls with [] => [] | l :: ls => anext e l :: place (anext e l + l) ls end.
Fixpoint pend (e : N) (ls : list N) : N :=
  match ls with [] => e | l :: ls => pend (anext e l + l) ls end.

Lemma place_app e a b : place e (a ++ b) = place e a ++ place (pend e a) b.
Proof. revert e; induction a as [|l a IH]; intros e; cbn; f_equal; auto. Qed.
Lemma pend_app e a b : pend e (a ++ b) = pend (pend e a) b.
Proof. revert e; induction a as [|l a IH]; intros e; cbn; auto. Qed.
Lemma place_length e l : length (place e l) = length l.
Proof. revert e; induction l as [|x l IH]; intros e; cbn; auto. Qed.
Lemma pend_ge e l : e <= pend e l.
Proof.
  revert e; induction l as [|x l IH]; intros e; cbn; [lia|]. specialize (IH (anext e x + x)).
  pose proof (anext_ge e x). lia.
Qed.

(** Entry lengths. *)
Definition plen_ok (l : N) : Prop := 0 < l <= 272 /\ l mod 4 = 0.

Lemma pend_bound e ls : Forall plen_ok ls -> pend e ls <= e + 544 * len ls.
Proof.
  intros H; revert e; induction H as [|l ls Hl Hls IH]; intros e; [cbn; lia|]. cbn [pend]. rewrite len_cons.
  specialize (IH (anext e l + l)). destruct (anext_lt e l); unfold plen_ok in *; lia.
Qed.

Lemma pend_mod4 e ls : Forall plen_ok ls -> e mod 4 = 0 -> pend e ls mod 4 = 0.
Proof.
  intros H; revert e; induction H as [|l ls Hl Hls IH]; intros e He; cbn [pend]; auto.
  apply IH. pose proof (anext_mod4 e l He). unfold plen_ok in *. lia.
Qed.

Lemma place_mod4 e ls : Forall plen_ok ls -> e mod 4 = 0 -> Forall (fun o => o mod 4 = 0) (place e ls).
Proof.
  intros H; revert e; induction H as [|l ls Hl Hls IH]; intros e He; cbn [place]; constructor.
  - apply anext_mod4; auto.
  - apply IH. pose proof (anext_mod4 e l He). unfold plen_ok in *. lia.
Qed.

Lemma place_in e ls o : In o (place e ls) -> e <= o.
Proof.
  revert e; induction ls as [|l ls IH]; intros e; cbn; [tauto|]. pose proof (anext_ge e l).
  intros [<-|H1]; auto. apply IH in H1. lia.
Qed.

Lemma place_in_end e ls o : Forall plen_ok ls -> In o (place e ls) -> o + 4 <= pend e ls.
Proof.
  intros H; revert e; induction H as [|l ls Hl Hls IH]; intros e; cbn; [tauto|].
  intros [<-|H1]; auto. pose proof (pend_ge (anext e l + l) ls). unfold plen_ok in *. lia.
Qed.

(** ** compute_size *)
Lemma size_fold m : forall xs ls e, mapM len_on_disk xs = Ok ls -> Forall plen_ok ls ->
  e + 544 * len ls < u32_modulus ->
  foldM (size_step m) e xs = Ok (pend e ls).
Proof.
  induction xs as [|x xs IH]; intros ls e HM HF HB.
  - injection HM as <-. reflexivity.
  - cbn [mapM] in HM. apply bind_ok in HM as (l & Hl & HM). apply bind_ok in HM as (ls' & Hls & HM).
    injection HM as <-. inversion HF; subst. rewrite len_cons in HB. cbn [foldM pend]. unfold size_step at 1.
    rewrite Hl. cbn [bind]. destruct (anext_lt e l); unfold plen_ok in *; try lia.
    + pose proof (anext_ge e l). rewrite u32_add_ok by lia. cbn [bind].
      rewrite sector_align_spec by (unfold u32_modulus in *; lia). cbn [bind].
      rewrite u32_add_ok by lia. cbn [bind]. replace (e + l + (anext e l - e)) with (anext e l + l) by lia.
      apply IH; auto. lia.
    + pose proof (anext_ge e l). rewrite u32_add_ok by lia. cbn [bind].
      rewrite sector_align_spec by (unfold u32_modulus in *; lia). cbn [bind].
      rewrite u32_add_ok by lia. cbn [bind]. replace (e + l + (anext e l - e)) with (anext e l + l) by lia.
      apply IH; auto. lia.
Qed.

(** ** compute_offsets *)
Lemma rotate_snoc {A} (l : list A) x : rotate_right1 (l ++ [x]) = x :: l.
Proof. unfold rotate_right1. rewrite rev_app_distr. cbn. rewrite rev_involutive. reflexivity. Qed.

Lemma nth_place e ls i l : nth_error ls (S i) = Some l -> 
  exists o l0, nth_error (place e ls) i = Some o /\ nth_error ls i = Some l0 /\ nth_error (place e ls) (S i) = Some (anext (o + l0) l).
Proof.
  revert e i; induction ls as [|l0 ls IH]; intros e i H; [destruct i; discriminate|].
  destruct i as [|i]; cbn [nth_error place] in *.
  - destruct ls as [|l1 ls]; [discriminate|]. injection H as ->. cbn. eauto 6.
  - apply IH; auto.
Qed.

(** State of the offsets vector before iteration [i]. *)
Lemma offsets_loop_spec m ls final : Forall plen_ok ls -> 544 * len ls < u32_modulus ->
  nth_error ls (length ls - 1) = Some final ->
  forall k i offs, (i + k = length ls)%nat -> (0 < i)%nat ->
  length offs = length ls ->
  (forall j, (j < i)%nat -> nth_error offs j = nth_error (place 0 ls) j) ->
  (forall j, (i <= j < length ls)%nat -> nth_error offs j = nth_error ls (j - 1)) ->
  offsets_loop m k i final offs = Ok (place 0 ls).
Proof.
  intros HF HB Hfin. induction k as [|k IH]; intros i offs Hik Hi Hlen Hlo Hhi; cbn [offsets_loop].
  - f_equal. apply nth_error_ext. intros j. destruct (Nat.lt_ge_cases j i); auto.
    rewrite (proj2 (nth_error_None _ _)) by lia. symmetry. apply nth_error_None. rewrite place_length. lia.
  - destruct (nth_error ls i) as [l|] eqn:El; [|apply nth_error_None in El; lia].
    destruct i as [|i0]; [lia|]. destruct (nth_place 0 ls i0 l El) as (o & l0 & Ho & Hl0 & Hn).
    assert (Hoff : nth_error offs (S i0) = Some l0). { rewrite Hhi by lia. replace (S i0 - 1)%nat with i0 by lia. auto. }
    assert (Hprev : nth_error offs i0 = Some o). { rewrite Hlo by lia. auto. }
    assert (Hpl : plen_ok l) by (eapply Forall_forall; eauto; eapply nth_error_In; eauto).
    assert (Hpl0 : plen_ok l0) by (eapply Forall_forall; eauto; eapply nth_error_In; eauto).
    assert (Hob : o + 4 <= 544 * len ls).
    { pose proof (place_in_end 0 ls o HF (nth_error_In _ _ Ho)). pose proof (pend_bound 0 ls HF). lia. }
    rewrite (index_ok _ _ _ Hoff). cbn [bind]. replace (S i0 - 1)%nat with i0 by lia.
    rewrite (index_ok _ _ _ Hprev). cbn [bind].
    assert (Hnext : (if Nat.eqb (S i0 + 1) (length offs) then Ok final else @index fserr _ offs (S i0 + 1)) = Ok l).
    { destruct (Nat.eqb_spec (S i0 + 1) (length offs)).
      - replace (length ls - 1)%nat with (S i0) in Hfin by lia. congruence.
      - apply index_ok. rewrite Hhi by (apply nth_error_lt in El; lia). replace (S i0 + 1 - 1)%nat with (S i0) by lia. auto. }
    rewrite Hnext. cbn [bind]. unfold plen_ok in *.
    assert (Hbig : l0 + o + l < 2048 * (u32_modulus - 1)) by (unfold u32_modulus in *; lia).
    rewrite sector_align_spec by (auto; lia). cbn [bind].
    pose proof (anext_ge (l0 + o) l). replace (l0 + o + (anext (l0 + o) l - (l0 + o))) with (anext (l0 + o) l) by lia.
    assert (Hm : anext (l0 + o) l mod 4 = 0).
    { apply anext_mod4. assert (o mod 4 = 0); [|lia].
      eapply (proj1 (Forall_forall _ _) (place_mod4 0 ls HF eq_refl)). eapply nth_error_In; eauto. }
    rewrite Hm. cbn [N.eqb rassert bind].
    apply IH; try lia.
    + rewrite upd_length. auto.
    + intros j Hj. destruct (Nat.eq_dec j (S i0)) as [->|Hne].
      * rewrite nth_upd_eq by lia. rewrite Hn, (N.add_comm o l0). reflexivity.
      * rewrite nth_upd_ne by lia. apply Hlo. lia.
    + intros j Hj. rewrite nth_upd_ne by lia. apply Hhi. lia.
Qed.

Lemma compute_offsets_spec m ls : ls <> [] -> Forall plen_ok ls -> 544 * len ls < u32_modulus ->
  compute_offsets m ls = Ok (place 0 ls).
Proof.
  intros Hne HF HB. destruct (exists_last Hne) as (ls0 & l & ->). unfold compute_offsets.
  rewrite rotate_snoc. cbn [index nth_error bind upd length].
  apply (offsets_loop_spec m (ls0 ++ [l])); auto.
  - rewrite app_length. cbn [length]. rewrite nth_error_app2 by lia.
    replace (length ls0 + 1 - 1 - length ls0)%nat with 0%nat by lia. reflexivity.
  - rewrite app_length. cbn. lia.
  - cbn [length]. rewrite app_length. cbn. lia.
  - intros [|j] Hj; [|lia]. destruct ls0; reflexivity.
  - intros [|j] Hj; [lia|]. cbn [nth_error]. replace (S j - 1)%nat with j by lia.
    rewrite app_length in Hj. cbn in Hj. rewrite nth_error_app1 by lia. reflexivity.
Qed.
