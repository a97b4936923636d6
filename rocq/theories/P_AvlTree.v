(** AVL: whole insertion histories, depth bound, reordering, in the vocabulary
    of S_Avl. *)
From Verif Require Import M_Base M_Avl P_Base P_Avl P_AvlIns P_AvlPre S_Avl.
From Coq Require Import ZifyBool ZifyNat ZifyN Permutation Sorted Arith.

Section P.
Context {T : Type}.
Notation node := (node T).
Notation avl := (avl T).
Implicit Types (ns : list node) (t : avl).

Fixpoint dmap {A B} (f : A -> B) (d : dtree A) : dtree B :=
  match d with Leaf => Leaf | Node l x r => Node (dmap f l) (f x) (dmap f r) end.

Lemma dmap_some_inj {A} (d d' : dtree A) : dmap Some d = dmap Some d' -> d = d'.
Proof.
  revert d'; induction d as [|l IHl x r IHr]; intros [|l' x' r'] H; cbn in H; try discriminate; auto.
  injection H as H1 H2 H3. rewrite (IHl _ H1), (IHr _ H3), H2. reflexivity.
Qed.

Lemma link_det ns p o d ord : link ns p o d ord -> forall p' d' ord', link (T := T) ns p' o d' ord' -> d = d' /\ ord = ord'.
Proof.
  induction 1 as [p|p i n l r ol or_ Hn Hp Hl IHl Hr IHr Hh]; intros p' d' ord' H'.
  - inversion H'; subst; auto.
  - inversion H' as [|p2 i2 n2 l2 r2 ol2 or2 Hn2 Hp2 Hl2 Hr2 Hh2]; subst.
    assert (n2 = n) as -> by congruence.
    destruct (IHl _ _ _ Hl2) as (-> & ->). destruct (IHr _ _ _ Hr2) as (-> & ->). auto.
Qed.

(** From the index tree to the abstract tree. *)
Lemma repr_link ns : forall s p, repr ns s p ->
  exists d, link ns p (rt s) d (pre s) /\ Z.of_nat (depth d) = ht s
   /\ map Some (inorder d) = map (fun i => option_map data (nth_error ns i)) (ino s)
   /\ map Some (preorder d) = map (fun i => option_map data (nth_error ns i)) (pre s)
   /\ size d = length (ino s) /\ (bal s -> balanced d)
   /\ dof (map data ns) s = dmap Some d.
Proof.
  induction s as [|l IHl i r IHr]; intros p Hs.
  - exists Leaf. cbn. ssplit; auto. constructor.
  - destruct Hs as (n & Hn & Hl & Hr & Hp & Hh & Hrl & Hrr).
    destruct (IHl _ Hrl) as (dl & L1 & L2 & L3 & L3' & L4 & L5 & L6).
    destruct (IHr _ Hrr) as (dr & R1 & R2 & R3 & R3' & R4 & R5 & R6).
    exists (Node dl (data n) dr). cbn [rt pre inorder preorder depth size balanced ino ht bal] in *.
    ssplit.
    + apply link_node; auto; try congruence. cbn [depth]. lia.
    + lia.
    + rewrite !map_app. cbn. rewrite L3, R3, Hn. reflexivity.
    + cbn. rewrite !map_app. rewrite L3', R3', Hn. reflexivity.
    + rewrite app_length. cbn. lia.
    + intros (H1 & H2 & H3). ssplit; auto; lia.
    + cbn. rewrite L6, R6. f_equal. apply map_nth_error. auto.
Qed.

Variable cmp : T -> T -> comparison.
Hypothesis Hord : total_order cmp.

Lemma cmp_eq_sym x y : cmp x y = Eq -> cmp y x = Eq.
Proof. intros H. rewrite (ord_opp _ Hord), H. reflexivity. Qed.

Lemma known_spec x acc : known cmp x acc = true <-> exists y, In y acc /\ cmp x y = Eq.
Proof.
  unfold known. rewrite existsb_exists. split; intros (y & Hy & H); exists y; split; auto.
  - destruct (cmp x y); try discriminate; auto.
  - rewrite H. auto.
Qed.

Lemma inv_datas_in t s j x : AvlInv cmp t s -> nth_error (datas t) j = Some x -> In j (ino s).
Proof.
  intros Hinv Hj. apply (Permutation_in _ (Permutation_sym (inv_perm _ _ _ Hinv))).
  apply in_seq. apply nth_error_lt in Hj. unfold datas in Hj. rewrite map_length in Hj. lia.
Qed.

Lemma insert_all_spec xs : forall t s,
  AvlInv cmp t s ->
  exists t' s' bs, insert_all cmp t xs = Ok (t', bs) /\ AvlInv cmp t' s'
    /\ (datas t', bs) = keep_first cmp (datas t) xs.
Proof.
  destruct Hord as [Hopp Htr Heq].
  induction xs as [|x xs IH]; intros t s Hinv; cbn [insert_all keep_first].
  - exists t, s, []. auto.
  - destruct (insert_spec cmp Hopp Htr t s x Hinv)
      as [(j & y & Hj & Hy & Hxy & E)|(t1 & s1 & L & R & E & Hinv1 & Hd1 & Hl1 & Hino & Hino1 & Hlo & Hhi)];
      rewrite E; cbn [bind].
    + assert (Hk : known cmp x (datas t) = true).
      { apply known_spec. exists y. split; auto. eapply nth_error_In; eauto. }
      rewrite Hk. destruct (IH t s Hinv) as (t' & s' & bs & E' & Hinv' & Hk'). rewrite E'. cbn [bind].
      exists t', s', (false :: bs). rewrite <- Hk'. auto.
    + assert (Hk : known cmp x (datas t) = false).
      { apply Bool.not_true_iff_false. intros Hk. apply known_spec in Hk. destruct Hk as (y & Hy & Hxy).
        apply In_nth_error in Hy. destruct Hy as (j & Hj).
        pose proof (inv_datas_in _ _ _ _ Hinv Hj) as Hin. rewrite Hino in Hin. apply in_app_iff in Hin.
        destruct Hin as [Hin|Hin]; [destruct (Hlo _ Hin) as (z & Hz & Hxz)|destruct (Hhi _ Hin) as (z & Hz & Hxz)]; congruence. }
      rewrite Hk. destruct (IH t1 s1 Hinv1) as (t' & s' & bs & E' & Hinv' & Hk'). rewrite E'. cbn [bind].
      rewrite Hd1 in Hk'. exists t', s', (true :: bs). rewrite <- Hk'. auto.
Qed.

Lemma map_some_nth (ds : list T) is l :
  map Some l = map (nth_error ds) is -> forall k x, nth_error l k = Some x -> exists i, nth_error is k = Some i /\ nth_error ds i = Some x.
Proof.
  intros H k x Hk. assert (Hx : nth_error (map Some l) k = nth_error (map (nth_error ds) is) k) by congruence.
  rewrite !nth_error_map, Hk in Hx. cbn in Hx. destruct (nth_error is k) as [i|]; [|discriminate].
  cbn in Hx. exists i. split; congruence.
Qed.

Lemma sorted_data (ds : list T) is : StronglySorted (ltk cmp ds) is -> forall l,
  map Some l = map (nth_error ds) is -> strictly_sorted cmp l.
Proof.
  induction 1 as [|i is His IH Hall]; intros l Hl; destruct l as [|x l]; try discriminate; [constructor|].
  cbn in Hl. injection Hl as Hx Hl. constructor; [apply IH; auto|].
  apply Forall_forall. intros y Hy. apply In_nth_error in Hy. destruct Hy as (k & Hk).
  destruct (map_some_nth _ _ _ Hl _ _ Hk) as (j & Hj & Hjy). rewrite Forall_forall in Hall.
  destruct (Hall j (nth_error_In _ _ Hj)) as (u & v & Hu & Hv & Huv). congruence.
Qed.

Lemma perm_data (ds : list T) is l :
  Permutation is (seq 0 (length ds)) -> map Some l = map (nth_error ds) is -> Permutation l ds.
Proof.
  intros Hp Hl.
  assert (Hds : map Some ds = map (nth_error ds) (seq 0 (length ds))).
  { clear. induction ds as [|d ds IH]; cbn; auto. f_equal. rewrite IH.
    rewrite <- seq_shift, map_map. reflexivity. }
  assert (Hps : Permutation (map Some l) (map Some ds)).
  { rewrite Hl, Hds. apply Permutation_map. auto. }
  apply Permutation_map_inv in Hps. destruct Hps as (l3 & H1 & H2).
  apply map_some_inj in H1. subst. symmetry. auto.
Qed.

Lemma datas_option t i : option_map data (nth_error (tree t) i) = nth_error (datas t) i.
Proof. symmetry. apply datas_nth. Qed.

(** C01/C02 in one statement. *)
Lemma history_correct xs :
  exists t bs d order,
    insert_all cmp avl_default xs = Ok (t, bs)
    /\ link (tree t) None (root t) d order
    /\ balanced d /\ strictly_sorted cmp (inorder d)
    /\ Permutation order (seq 0 (length (tree t)))
    /\ keep_first cmp [] xs = (map data (tree t), bs)
    /\ Permutation (inorder d) (map data (tree t)).
Proof.
  destruct (insert_all_spec xs avl_default E (AvlInv_default cmp)) as (t & s & bs & E1 & Hinv & Hk).
  destruct (repr_link _ _ _ (inv_repr _ _ _ Hinv)) as (d & D1 & D2 & D3 & _ & D4 & D5 & D6).
  assert (D3' : map Some (inorder d) = map (nth_error (datas t)) (ino s)).
  { rewrite D3. apply map_ext. intros i. apply datas_option. }
  exists t, bs, d, (pre s). ssplit; auto.
  - rewrite (inv_root _ _ _ Hinv). auto.
  - apply D5, (inv_bal _ _ _ Hinv).
  - eapply sorted_data; [apply (inv_sort _ _ _ Hinv)|auto].
  - rewrite pre_perm. apply (inv_perm _ _ _ Hinv).
  - change (map data (tree t)) with (datas t). eapply perm_data; [|exact D3'].
    unfold datas. rewrite map_length. apply (inv_perm _ _ _ Hinv).
Qed.

(** The pieces used by the directory table proofs. *)
Lemma reorder_correct t s :
  AvlInv cmp t s ->
  exists t' d,
    reorder_backing_preorder t = Ok t'
    /\ link (tree t) None (root t) d (pre s)
    /\ link (tree t') None (root t') d (seq 0 (length (tree t)))
    /\ balanced d /\ strictly_sorted cmp (inorder d)
    /\ length (tree t') = length (tree t)
    /\ map data (tree t') = preorder d
    /\ Permutation (inorder d) (map data (tree t)).
Proof.
  intros Hinv.
  destruct (reorder_spec t s (inv_root _ _ _ Hinv) (inv_repr _ _ _ Hinv) (inv_bal _ _ _ Hinv) (inv_perm _ _ _ Hinv))
    as (t' & s' & E' & Hr' & Hs' & Hb' & Hpre' & Hl' & Hd' & Hht).
  destruct (repr_link _ _ _ (inv_repr _ _ _ Hinv)) as (d & D1 & D2 & D3 & _ & D4 & D5 & D6).
  destruct (repr_link _ _ _ Hs') as (d' & F1 & F2 & F3 & F3' & F4 & F5 & F6).
  assert (D3' : map Some (inorder d) = map (nth_error (datas t)) (ino s)).
  { rewrite D3. apply map_ext. intros i. apply datas_option. }
  assert (d' = d) as -> by (apply dmap_some_inj; unfold datas in Hd'; congruence).
  exists t', d. ssplit; auto.
  - rewrite (inv_root _ _ _ Hinv). auto.
  - rewrite Hr', <- Hpre'. auto.
  - eapply sorted_data; [apply (inv_sort _ _ _ Hinv)|auto].
  - apply map_some_inj. rewrite F3', Hpre', <- Hl'. generalize (tree t'). clear.
    induction l as [|n l IH]; cbn; auto. f_equal. rewrite IH, <- seq_shift, map_map. reflexivity.
  - change (map data (tree t)) with (datas t). eapply perm_data; [|exact D3'].
    unfold datas. rewrite map_length. apply (inv_perm _ _ _ Hinv).
Qed.

(** C04. *)
Lemma history_reorder xs t bs d order :
  insert_all cmp avl_default xs = Ok (t, bs) -> link (tree t) None (root t) d order ->
  preorder_indices t = Ok order
  /\ exists t', reorder_backing_preorder t = Ok t'
    /\ link (tree t') None (root t') d (seq 0 (length (tree t)))
    /\ length (tree t') = length (tree t)
    /\ map data (tree t') = preorder d.
Proof.
  intros E1 Hlink.
  destruct (insert_all_spec xs avl_default E (AvlInv_default cmp)) as (t1 & s & bs1 & E2 & Hinv & _).
  rewrite E2 in E1. injection E1 as -> ->.
  destruct (reorder_correct _ _ Hinv) as (t' & d' & R1 & R2 & R3 & R4 & R5 & R6 & R7 & R8).
  destruct (link_det _ _ _ _ _ Hlink _ _ _ R2) as (-> & ->).
  split; [|exists t'; auto].
  apply preorder_indices_spec; [apply (inv_root _ _ _ Hinv)|apply (inv_repr _ _ _ Hinv)|eapply length_ino_inv; eauto].
Qed.

Lemma history_link xs t bs d order :
  insert_all cmp avl_default xs = Ok (t, bs) -> link (tree t) None (root t) d order ->
  balanced d /\ size d = length (tree t).
Proof.
  intros E1 Hlink.
  destruct (insert_all_spec xs avl_default E (AvlInv_default cmp)) as (t1 & s & bs1 & E2 & Hinv & _).
  rewrite E2 in E1. injection E1 as -> ->.
  destruct (repr_link _ _ _ (inv_repr _ _ _ Hinv)) as (d' & D1 & D2 & D3 & _ & D4 & D5 & D6).
  rewrite <- (inv_root _ _ _ Hinv) in D1.
  destruct (link_det _ _ _ _ _ Hlink _ _ _ D1) as (-> & ->).
  split; [apply D5, (inv_bal _ _ _ Hinv)|]. rewrite D4. eapply length_ino_inv; eauto.
Qed.

End P.

(** ** Depth *)
Lemma fib_SS n : fib (S (S n)) = fib (S n) + fib n.
Proof. reflexivity. Qed.

Lemma fib_mono n m : n <= m -> fib n <= fib m.
Proof.
  assert (H : forall n, fib n <= fib (S n)).
  { intros k. destruct k; [cbn; lia|]. rewrite fib_SS. lia. }
  induction 1; auto. etransitivity; eauto.
Qed.

Lemma balanced_fib {T} (d : dtree T) : balanced d -> fib (depth d + 2) <= size d + 1.
Proof.
  induction d as [|l IHl x r IHr]; [cbn; lia|].
  cbn [balanced depth size]. intros (Hl & Hr & H1 & H2). specialize (IHl Hl). specialize (IHr Hr).
  set (h := Nat.max (depth l) (depth r)) in *.
  assert (Hh : exists k, h = k /\ ((depth l = k /\ (k <= S (depth r))) \/ (depth r = k /\ k <= S (depth l)))).
  { exists h. split; auto. unfold h. lia. }
  replace (S h + 2) with (S (S (S h))) by lia. rewrite fib_SS.
  replace (S (S h)) with (h + 2) by lia.
  destruct (Nat.max_spec (depth l) (depth r)) as [(Hm & Hx)|(Hm & Hx)]; fold h in Hx.
  - assert (fib (S h) <= fib (depth l + 2)) by (apply fib_mono; lia). rewrite Hx in *. lia.
  - assert (fib (S h) <= fib (depth r + 2)) by (apply fib_mono; lia). rewrite Hx in *. lia.
Qed.

Lemma fib_pow n : 2 ^ n <= (fib (n + 2)) * (fib (n + 2)).
Proof.
  assert (H : forall n, 2 * fib n <= fib (S (S n))).
  { intros k. rewrite fib_SS. assert (fib k <= fib (S k)) by (apply fib_mono; lia). lia. }
  assert (H2 : 2 ^ n <= fib (n + 2) * fib (n + 2) /\ 2 ^ (S n) <= fib (S n + 2) * fib (S n + 2)); [|tauto].
  induction n as [|n (IH1 & IH2)]; [cbn; lia|]. split; auto.
  replace (S (S n) + 2) with (S (S (n + 2))) by lia. specialize (H (n + 2)).
  rewrite !Nat.pow_succ_r'. nia.
Qed.

Lemma balanced_log {T} (d : dtree T) : balanced d -> 2 ^ depth d <= (size d + 1) * (size d + 1).
Proof.
  intros H. apply balanced_fib in H. pose proof (fib_pow (depth d)). nia.
Qed.

Lemma history_depth {T} (cmp : T -> T -> comparison) (Hord : total_order cmp) xs t bs d order :
  insert_all cmp avl_default xs = Ok (t, bs) -> link (tree t) None (root t) d order ->
  fib (depth d + 2) <= length (tree t) + 1 /\ 2 ^ depth d <= (length (tree t) + 1) * (length (tree t) + 1).
Proof.
  intros H1 H2. destruct (history_link cmp Hord _ _ _ _ _ H1 H2) as (Hb & <-).
  split; [apply balanced_fib|apply balanced_log]; auto.
Qed.

Lemma insert_after {T} (cmp : T -> T -> comparison) (Hord : total_order cmp) xs t bs x :
  insert_all cmp avl_default xs = Ok (t, bs) ->
  exists t', insert cmp t x = Ok (t', negb (known cmp x (map data (tree t))))
    /\ (if known cmp x (map data (tree t)) then t' = t
        else map data (tree t') = map data (tree t) ++ [x]).
Proof.
  intros E1. destruct (insert_all_spec cmp Hord xs avl_default E (AvlInv_default cmp)) as (t1 & s & bs1 & E2 & Hinv & _).
  rewrite E2 in E1. injection E1 as -> ->. destruct Hord as [Hopp Htr Heq].
  destruct (insert_spec cmp Hopp Htr t s x Hinv)
      as [(j & y & Hj & Hy & Hxy & E)|(t1 & s1 & L & R & E & Hinv1 & Hd1 & Hl1 & Hino & Hino1 & Hlo & Hhi)].
  - replace (known cmp x (map data (tree t))) with true; [eauto|]. symmetry.
    apply existsb_exists. exists y. split; [eapply nth_error_In; exact Hy|]. rewrite Hxy. reflexivity.
  - replace (known cmp x (map data (tree t))) with false; [eauto|]. symmetry.
    destruct (known cmp x (map data (tree t))) eqn:K; auto. exfalso. unfold known in K.
    apply existsb_exists in K as (y & Hy & Hxy). apply In_nth_error in Hy as (j & Hj).
    assert (In j (ino s)) as Hin.
    { apply (Permutation_in j (Permutation_sym (inv_perm _ _ _ Hinv))). apply in_seq.
      apply nth_error_lt in Hj. rewrite map_length in Hj. lia. }
    rewrite Hino in Hin. apply in_app_or in Hin as [Hin|Hin].
    + destruct (Hlo _ Hin) as (z & Hz & Hzx). unfold datas in *. rewrite Hj in Hz. injection Hz as <-.
      rewrite Hzx in Hxy. discriminate.
    + destruct (Hhi _ Hin) as (z & Hz & Hzx). unfold datas in *. rewrite Hj in Hz. injection Hz as <-.
      rewrite Hzx in Hxy. discriminate.
Qed.
