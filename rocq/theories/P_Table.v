(** Consequences of [disk_repr_spec] in the vocabulary of [S_Table]. *)
From Verif Require Import M_Base M_Util M_Layout M_Avl M_Sector M_Dirtab P_Base P_Layout S_Avl S_Codec S_Table
  P_AvlTree P_Codec P_Place P_Dirtab.
From Coq Require Import ZifyBool ZifyNat ZifyN Init.Byte Permutation Sorted.
Local Open Scope N_scope.

Lemma recs_length D : length (recs D) = size D.
Proof. induction D as [|l IHl e r IHr]; cbn; auto. rewrite app_length. lia. Qed.

Lemma label_size offs secs k d : size (label offs secs k d) = size d.
Proof. revert k; induction d as [|l IHl x r IHr]; intros k; cbn; auto. Qed.

Lemma label_preorder offs secs d : forall k j e, nth_error (preorder (label offs secs k d)) j = Some e ->
  p_off e = nth (k + j) offs 0 /\ p_sector e = nth (k + j) secs 0.
Proof.
  induction d as [|l IHl x r IHr]; intros k j e; cbn [label preorder]; [destruct j; discriminate|].
  destruct j as [|j]; cbn [nth_error].
  - intros E; injection E as <-. rewrite Nat.add_0_r. auto.
  - intros H. destruct (Nat.lt_ge_cases j (size l)) as [Hj|Hj].
    + rewrite nth_error_app1 in H by (rewrite size_preorder, label_size; auto).
      apply IHl in H. replace (k + S j)%nat with (k + 1 + j)%nat by lia. auto.
    + rewrite nth_error_app2 in H by (rewrite size_preorder, label_size; auto).
      rewrite size_preorder, label_size in H.
      apply IHr in H. replace (k + S j)%nat with (k + 1 + size l + (j - size l))%nat by lia. auto.
Qed.

Lemma records_label b offs secs d : forall k,
  Forall encodable (preorder d) ->
  (forall j r, nth_error (recs (label offs secs k d)) j = Some r ->
      slice b (nth (k + j) offs 0) (len r) = r /\ nth (k + j) offs 0 + len r <= len b) ->
  records b (label offs secs k d).
Proof.
  induction d as [|l IHl x r IHr]; intros k HE H; cbn [label records]; auto.
  cbn [label recs preorder] in *. inversion HE as [|? ? E1 E2]; subst. apply Forall_app in E2 as [E2 E3].
  ssplit.
  - destruct (H 0%nat _ eq_refl) as (H1 & H2). rewrite Nat.add_0_r in *. rewrite rec_bytes_len in *. cbn [p_item] in *.
    destruct (nm_spec x E1) as (N1 & N2 & N3 & N4).
    exists (nm x). ssplit; auto. cbn [p_off]. lia.
  - apply IHl; auto. intros j rb Hj. replace (k + 1 + j)%nat with (k + S j)%nat by lia. apply H. cbn [nth_error].
    rewrite nth_error_app1; auto. apply nth_error_lt in Hj. auto.
  - apply IHr; auto. intros j rb Hj. replace (k + 1 + size l + j)%nat with (k + S (size l + j))%nat by lia. apply H. cbn [nth_error].
    rewrite nth_error_app2 by (rewrite recs_length, label_size; lia). rewrite recs_length, label_size.
    replace (size l + j - size l)%nat with j by lia. auto.
Qed.

Lemma pad_to_2048 n : (n + (2048 - n mod 2048) mod 2048) mod 2048 = 0.
Proof. lia. Qed.

Section Tab.
Variables (nf : N) (d : dtree item).
Hypothesis HE : Forall encodable (preorder d).
Let D := dtab nf d.
Let ls := map ilen (preorder d).
Let b := table_bytes D.

Lemma tab_plens : map plen (recs D) = ls.
Proof. unfold D, dtab. rewrite recs_plen; rewrite label_preorder_items; auto. Qed.

Lemma tab_ok : Forall plen_ok ls.
Proof.
  unfold ls. apply Forall_forall. intros l Hl. apply in_map_iff in Hl as (x & <- & Hx). apply ilen_ok.
  rewrite Forall_forall in HE. auto.
Qed.

Lemma tab_len : len b = pend 0 ls + (2048 - pend 0 ls mod 2048) mod 2048.
Proof.
  unfold b, table_bytes. pose proof (render_len 0 (recs D)) as Q. rewrite N.add_0_l, tab_plens in Q.
  rewrite len_app, len_fill, Q. reflexivity.
Qed.

Lemma tab_rec j r : nth_error (recs D) j = Some r ->
  slice b (nth j (place 0 ls) 0) (len r) = r /\ nth j (place 0 ls) 0 + len r <= pend 0 ls.
Proof.
  intros Hr. pose proof (nth_error_lt _ _ _ Hr) as Hj. 
  assert (Hl : length (recs D) = length ls) by (rewrite <- tab_plens, map_length; auto).
  assert (Ho : nth_error (place 0 ls) j = Some (nth j (place 0 ls) 0)) by (apply nth_error_nth'; rewrite place_length; lia).
  split.
  - unfold b, table_bytes. rewrite <- tab_plens in Ho |- *. apply (render_slice 0 (recs D) j r _ [] _ Hr Ho). reflexivity.
  - assert (Hlj : nth_error ls j = Some (plen r)).
    { rewrite <- tab_plens. apply map_nth_error; auto. }
    pose proof (plen_ge r).
    clear -Ho Hlj H. revert Ho Hlj. generalize (nth j (place 0 ls) 0) as o. generalize 0 as e. revert j.
    induction ls as [|l ls' IH]; intros j e o Ho Hlj; [destruct j; discriminate|].
    destruct j as [|j]; cbn [nth_error place pend] in *.
    + injection Ho as <-. injection Hlj as ->. pose proof (pend_ge (anext e (plen r) + plen r) ls'). lia.
    + eapply IH; eauto.
Qed.

Lemma tab_records : records b D.
Proof.
  apply records_label; auto. intros j r Hr. cbn [plus]. destruct (tab_rec j r Hr) as (H1 & H2). split; auto.
  rewrite tab_len. fold ls. lia.
Qed.

Lemma tab_entry j e : nth_error (preorder D) j = Some e ->
  nth_error (place 0 ls) j = Some (p_off e) /\ nth_error ls j = Some (pad4 (rec_len (p_item e)))
  /\ nth_error (starts nf (map size_of (preorder d))) j = Some (p_sector e)
  /\ nth_error (preorder d) j = Some (p_item e).
Proof.
  intros H. pose proof (label_preorder _ _ _ _ _ _ H) as (H1 & H2). cbn [plus] in *.
  pose proof (nth_error_lt _ _ _ H) as Hj. unfold D, dtab in Hj. rewrite size_preorder, label_size in Hj.
  pose proof (map_nth_error p_item _ _ H) as Hi. unfold D, dtab in Hi. rewrite label_preorder_items in Hi.
  ssplit; auto.
  - rewrite H1. apply nth_error_nth'. rewrite place_length. unfold ls. rewrite map_length, size_preorder. auto.
  - unfold ls. rewrite (map_nth_error ilen _ _ Hi). reflexivity.
  - rewrite H2. apply nth_error_nth'. rewrite starts_length, map_length, size_preorder. auto.
Qed.

Lemma place_sector ls' e : Forall plen_ok ls' -> forall j o l, nth_error (place e ls') j = Some o -> nth_error ls' j = Some l ->
  o / 2048 = (o + l - 1) / 2048.
Proof.
  intros H; revert e; induction H as [|l ls' Hl Hls IH]; intros e j o l' Ho Hl'; [destruct j; discriminate|].
  destruct j as [|j]; cbn [nth_error place] in *; [|eapply IH; eauto].
  injection Ho as <-. injection Hl' as <-. apply anext_sector. unfold plen_ok in Hl. lia.
Qed.

Lemma tab_layout : d <> Leaf -> legal_layout b (preorder D).
Proof.
  intros Hd. unfold legal_layout. ssplit.
  - intros e He. apply In_nth_error in He as (j & Hj). destruct (tab_entry _ _ Hj) as (H1 & H2 & _).
    pose proof (pad4_spec (rec_len (p_item e))) as Hp.
    assert (Hm : p_off e mod 4 = 0).
    { eapply (proj1 (Forall_forall _ _) (place_mod4 0 ls tab_ok eq_refl)). eapply nth_error_In; eauto. }
    pose proof (place_sector _ _ tab_ok _ _ _ H1 H2) as Hs.
    assert (Hr : 14 <= rec_len (p_item e)) by (unfold rec_len; lia).
    ssplit; auto.
    + lia.
    + assert (Hrb : exists r, nth_error (recs D) j = Some r /\ plen r = pad4 (rec_len (p_item e))).
      { destruct (nth_error (recs D) j) as [r|] eqn:Er.
        - exists r. split; auto. rewrite <- tab_plens, (map_nth_error plen _ _ Er) in H2. congruence.
        - apply nth_error_None in Er. apply nth_error_lt in H2. rewrite <- tab_plens, map_length in H2. lia. }
      rewrite tab_len.
      assert (p_off e + pad4 (rec_len (p_item e)) <= pend 0 ls); [|lia].
      clear -H1 H2. revert H1 H2. generalize (p_off e) as o, (pad4 (rec_len (p_item e))) as l. generalize 0 as e0. revert j.
      induction ls as [|l ls' IH]; intros j e0 o l' Ho Hlj; [destruct j; discriminate|].
      destruct j as [|j]; cbn [nth_error place pend] in *.
      * injection Ho as <-. injection Hlj as ->. pose proof (pend_ge (anext e0 l' + l') ls'). lia.
      * eapply IH; eauto.
  - intros i e1 e2 H1 H2. destruct (tab_entry _ _ H1) as (A1 & A2 & _). destruct (tab_entry _ _ H2) as (B1 & B2 & _).
    destruct (nth_place 0 ls i _ B2) as (o & l0 & O1 & O2 & O3). rewrite A1 in O1. rewrite A2 in O2. rewrite B1 in O3.
    injection O1 as <-. injection O2 as <-. injection O3 as O3. rewrite O3.
    pose proof (anext_ge (p_off e1 + pad4 (rec_len (p_item e1))) (pad4 (rec_len (p_item e2)))).
    pose proof (pad4_spec (rec_len (p_item e1))). lia.
  - intros p c Hc Hout. unfold b, table_bytes in Hc.
    destruct (Nat.lt_ge_cases p (length (render 0 (recs D)))) as [Hp|Hp].
    + rewrite nth_error_app1 in Hc by auto. eapply render_gap; [|exact Hc].
      intros i r o Hr Ho Hin. rewrite N.add_0_l in Hin.
      assert (Hi : (i < length (preorder D))%nat).
      { apply nth_error_lt in Hr. rewrite recs_length in Hr. rewrite size_preorder. auto. }
      destruct (nth_error (preorder D) i) as [e|] eqn:Ee; [|apply nth_error_None in Ee; lia].
      destruct (tab_entry _ _ Ee) as (A1 & A2 & _ & A4). rewrite tab_plens in Ho. rewrite Ho in A1. injection A1 as ->.
      apply (Hout e); [eapply nth_error_In; eauto|].
      assert (len r = rec_len (p_item e)); [|lia].
      assert (Hri : forall D i r e, nth_error (recs D) i = Some r -> nth_error (preorder D) i = Some e -> len r = 14 + len (nm (p_item e))).
      { clear. induction D as [|l IHl x r IHr]; intros i rb e H1 H2; [destruct i; discriminate|].
        destruct i as [|i]; cbn [recs preorder nth_error] in *.
        - injection H1 as <-. injection H2 as <-. apply rec_bytes_len.
        - destruct (Nat.lt_ge_cases i (size l)) as [Hi|Hi].
          + rewrite nth_error_app1 in H1 by (rewrite recs_length; auto). rewrite nth_error_app1 in H2 by (rewrite size_preorder; auto). eauto.
          + rewrite nth_error_app2 in H1 by (rewrite recs_length; auto). rewrite nth_error_app2 in H2 by (rewrite size_preorder; auto).
            rewrite recs_length in H1. rewrite size_preorder in H2. eauto. }
      rewrite (Hri _ _ _ _ Hr Ee). rewrite Forall_forall in HE.
      destruct (nm_spec (p_item e)) as (_ & -> & _); [apply HE; eapply nth_error_In; eauto|]. reflexivity.
    + rewrite nth_error_app2 in Hc by auto. rewrite nth_fill in Hc. destruct (_ <? _); congruence.
  - rewrite tab_len. apply pad_to_2048.
  - rewrite tab_len. destruct d as [|l x r]; [congruence|]. unfold ls. cbn [preorder map pend].
    pose proof (pend_ge (anext 0 (ilen x) + ilen x) (map ilen (preorder l ++ preorder r))).
    inversion HE as [|? ? Hx _]; subst. pose proof (ilen_ok x Hx) as [Hp _]. lia.
Qed.

Lemma tab_offsets_small : pend 0 (map ilen (preorder d)) <= 262144 -> forall e, In e (preorder D) -> p_off e + rec_len (p_item e) <= 262144.
Proof.
  intros Hsmall e He. apply In_nth_error in He as (j & Hj). destruct (tab_entry _ _ Hj) as (H1 & H2 & _).
  pose proof (pad4_spec (rec_len (p_item e))) as Hp.
  assert (p_off e + pad4 (rec_len (p_item e)) <= pend 0 ls); [|unfold ls in *; lia].
  clear -H1 H2. revert H1 H2. generalize (p_off e) as o, (pad4 (rec_len (p_item e))) as l. generalize 0 as e0. revert j.
  induction ls as [|l ls' IH]; intros j e0 o l' Ho Hlj; [destruct j; discriminate|].
  destruct j as [|j]; cbn [nth_error place pend] in *.
  + injection Ho as <-. injection Hlj as ->. pose proof (pend_ge (anext e0 l' + l') ls'). lia.
  + eapply IH; eauto.
Qed.

Lemma tab_nonroot_pos j e : nth_error (preorder D) (S j) = Some e -> 0 < p_off e.
Proof.
  intros Hj. destruct (tab_entry _ _ Hj) as (H1 & H2 & _).
  destruct (nth_place 0 ls j _ H2) as (o & l0 & O1 & O2 & O3). rewrite H1 in O3. injection O3 as O3. rewrite O3.
  pose proof (anext_ge (o + l0) (pad4 (rec_len (p_item e)))).
  assert (plen_ok l0) as [Hp _] by (eapply Forall_forall; [apply tab_ok|eapply nth_error_In; eauto]). lia.
Qed.
End Tab.

Lemma subtree_in {T} (c d : dtree T) l x r : subtree c d -> c = Node l x r -> In x (preorder d).
Proof.
  induction 1 as [d|c l' y r' _ IH|c l' y r' _ IH]; intros E.
  - subst. left; auto.
  - cbn. right. apply in_or_app; auto.
  - cbn. right. apply in_or_app; auto.
Qed.

(** A child is not the first entry in preorder. *)
Lemma subtree_child_pos {T} (d : dtree T) l x r c cl y cr :
  subtree (Node l x r) d -> (c = l \/ c = r) -> c = Node cl y cr -> exists j, nth_error (preorder d) (S j) = Some y.
Proof.
  intros Hs Hc ->. remember (Node l x r) as n eqn:En. induction Hs as [d|n l' z r' _ IH|n l' z r' _ IH]; subst.
  - cbn [preorder]. destruct Hc as [<-|<-].
    + exists 0%nat. reflexivity.
    + exists (length (preorder l)). cbn [nth_error]. rewrite nth_error_app2 by lia. rewrite Nat.sub_diag. reflexivity.
  - destruct (IH eq_refl) as (j & Hj). exists (S j). change (nth_error (preorder l' ++ preorder r') (S j) = Some y).
    rewrite nth_error_app1; auto. apply nth_error_lt in Hj. auto.
  - destruct (IH eq_refl) as (j & Hj). exists (length (preorder l') + S j)%nat. change (nth_error (preorder l' ++ preorder r') (length (preorder l') + S j) = Some y).
    rewrite nth_error_app2 by lia. replace (length (preorder l') + S j - length (preorder l'))%nat with (S j) by lia. auto.
Qed.

(** ** The whole life of a table *)
Lemma forallb_enc xs : Forall short xs -> (forallb enc_b xs = true <-> Forall encodable xs).
Proof.
  intros H. rewrite forallb_forall, Forall_forall. rewrite Forall_forall in H.
  split; intros Q x Hx; apply enc_b_spec; auto.
Qed.

Lemma total_perm xs ys : Permutation xs ys -> total (map size_of xs) = total (map size_of ys).
Proof. unfold total. induction 1; cbn [map fold_right]; lia. Qed.

Lemma tmap_depth {A B} (f : A -> B) d : depth (tmap f d) = depth d.
Proof. induction d as [|l IHl x r IHr]; cbn; [reflexivity|]. rewrite IHl, IHr. reflexivity. Qed.
Lemma tmap_balanced {A B} (f : A -> B) d : balanced (tmap f d) -> balanced d.
Proof. induction d as [|l IHl x r IHr]; cbn; [auto|]. rewrite !tmap_depth. intros (H1 & H2 & H3 & H4). auto. Qed.

Lemma built_table m xs w w' :
  add_items m xs = Ok w -> compute_size m w = Ok w' ->
  Forall size_fits xs -> 544 * len xs < u32_modulus ->
  exists d order, Reach (w_table w') xs /\ Permutation (inorder d) xs /\ strictly_sorted item_cmp (inorder d)
    /\ link (tree (w_table w')) None (root (w_table w')) (tmap edata_of d) order
    /\ w' = mkWriter (w_table w) (Some (pend 0 (map ilen (preorder d))))
    /\ Forall encodable xs /\ distinct xs /\ balanced d.
Proof.
  intros H1 H2 HF HB. unfold add_items in H1.
  destruct (add_items_run m xs [] writer_default Reach_nil HF I) as [(w1 & E1 & HR & HD & HS & _)|[(E1 & _)|(E1 & _)]]; try congruence.
  rewrite H1 in E1. injection E1 as <-. cbn [app] in *.
  destruct (Reach_tree _ _ HR) as (d & order & HL & HP & HSo & HBal & Hlen).
  rewrite (compute_size_spec m w xs d order) in H2 by auto.
  destruct (forallb enc_b xs) eqn:He; [|discriminate]. injection H2 as <-. cbn [w_table].
  exists d, order. ssplit; auto; [apply forallb_enc; auto|]. eapply tmap_balanced; eauto.
Qed.

Lemma empty_table_is_empty t xs : Reach t xs -> (tree t = [] <-> xs = []).
Proof.
  intros H. pose proof (Reach_data _ _ H) as Hd. split.
  - intros E. rewrite E in Hd. destruct xs; [auto|discriminate].
  - intros ->. destruct (tree t); [auto|discriminate].
Qed.

Lemma dirtab_size_spec {E} xs w w' d : Reach (w_table w') xs -> w' = mkWriter (w_table w) (Some (pend 0 (map ilen (preorder d)))) ->
  @dirtab_size E w' = Ok (match xs with [] => 2048 | _ => pend 0 (map ilen (preorder d)) end).
Proof.
  intros HR ->. cbn [w_table] in HR. unfold dirtab_size, table_is_empty. cbn [w_table w_size].
  pose proof (empty_table_is_empty _ _ HR) as He. destruct (tree (w_table w)); destruct xs; cbn; auto.
  - destruct He as [He _]. discriminate He; auto.
  - destruct He as [_ He]. discriminate He; auto.
Qed.

Lemma disk_repr_total m xs w w' nf :
  add_items m xs = Ok w -> compute_size m w = Ok w' -> in_range nf xs ->
  exists s, @dirtab_size fserr w' = Ok s
    /\ (s <= 262144 -> exists t nf', disk_repr m w' nf = Ok (t, nf'))
    /\ (262144 < s -> disk_repr m w' nf = Err TooManyDirectoryEntries).
Proof.
  intros H1 H2 (HF & HB & Hnf). destruct (built_table m xs w w' H1 H2 HF HB) as (d & order & HR & HP & HSo & HL & Ew & HE & HD & HBal).
  pose proof (@dirtab_size_spec fserr xs w w' d HR Ew) as Hds. eexists. split; [exact Hds|].
  destruct xs as [|x0 xs0] eqn:Exs.
  - split; [|lia]. intros _. unfold disk_repr. unfold table_is_empty.
    rewrite (proj2 (empty_table_is_empty _ _ HR) eq_refl). eauto.
  - rewrite <- Exs in *. assert (Hne : xs <> []) by (rewrite Exs; discriminate).
    assert (Ht : total (map size_of (preorder d)) = total (map size_of xs)).
    { apply total_perm. transitivity (inorder d); auto. apply preorder_perm. }
    assert (HSz : small_sizes xs). { eapply Forall_impl; [|exact HF]. intros x [_ Hx]; auto. }
    pose proof (disk_repr_spec m (w_table w') nf xs d order HR HP HL HE HSz Hne HB) as Hspec. rewrite Ht in Hspec.
    specialize (Hspec Hnf). cbn zeta in Hspec. rewrite Ew in Hspec |- *. cbn [w_table] in Hspec. rewrite Hspec.
    split; intros Hs.
    + destruct (N.leb_spec (pend 0 (map ilen (preorder d))) 262144); [eauto|lia].
    + destruct (N.leb_spec (pend 0 (map ilen (preorder d))) 262144); [lia|auto].
Qed.

(** Everything about a serialized, non-empty table. *)
Lemma disk_repr_facts m xs w w' nf t nf' :
  add_items m xs = Ok w -> compute_size m w = Ok w' -> disk_repr m w' nf = Ok (t, nf') -> in_range nf xs -> xs <> [] ->
  exists d, Permutation (inorder d) xs /\ strictly_sorted item_cmp (inorder d)
    /\ Forall encodable (preorder d) /\ distinct xs
    /\ pend 0 (map ilen (preorder d)) <= 262144
    /\ t = mkDiskTable (table_bytes (dtab nf d)) (map lst (preorder (dtab nf d)))
    /\ nf' = nf + total (map size_of xs)
    /\ @dirtab_size fserr w' = Ok (pend 0 (map ilen (preorder d))) /\ balanced d.
Proof.
  intros H1 H2 H3 (HF & HB & Hnf) Hne. destruct (built_table m xs w w' H1 H2 HF HB) as (d & order & HR & HP & HSo & HL & Ew & HE & HD & HBal).
  assert (Ht : total (map size_of (preorder d)) = total (map size_of xs)).
  { apply total_perm. transitivity (inorder d); auto. apply preorder_perm. }
  assert (HSz : small_sizes xs). { eapply Forall_impl; [|exact HF]. intros x [_ Hx]; auto. }
  pose proof (disk_repr_spec m (w_table w') nf xs d order HR HP HL HE HSz Hne HB) as Hspec. rewrite Ht in Hspec.
  specialize (Hspec Hnf). cbn zeta in Hspec. rewrite Ew in Hspec, H3. cbn [w_table] in Hspec. rewrite Hspec in H3.
  destruct (N.leb_spec (pend 0 (map ilen (preorder d))) 262144) as [Hle|]; [|discriminate]. injection H3 as <- <-.
  pose proof (@dirtab_size_spec fserr xs w w' d HR Ew) as Hds.
  exists d. ssplit; auto.
  - eapply Permutation_Forall; [|exact HE]. symmetry. transitivity (inorder d); auto. apply preorder_perm.
  - rewrite Hds. destruct xs; [congruence|reflexivity].
Qed.

Lemma dtab_items nf d : tmap p_item (dtab nf d) = d.
Proof. apply label_items. Qed.

Lemma last_pend e l ls : exists o lst, pend e (ls ++ [l]) = o + l /\ nth_error (place e (ls ++ [l])) (length ls) = Some o /\ lst = l.
Proof.
  exists (anext (pend e ls) l), l. rewrite pend_app, place_app. ssplit; auto.
  rewrite nth_error_app2 by (rewrite place_length; lia). rewrite place_length, Nat.sub_diag. reflexivity.
Qed.

Lemma c09_lemma m xs w w' nf t nf' :
  add_items m xs = Ok w -> compute_size m w = Ok w' -> disk_repr m w' nf = Ok (t, nf') -> in_range nf xs -> xs <> [] ->
  exists D : dtree pent,
    Permutation (map p_item (inorder D)) xs
    /\ strictly_sorted item_cmp (map p_item (inorder D))
    /\ records (entry_table t) D
    /\ legal_layout (entry_table t) (preorder D)
    /\ map p_sector (preorder D) = starts nf (map size_of (map p_item (preorder D)))
    /\ file_listing t = map (fun e => mkListing (i_name (p_item e)) (p_sector e) (size_of (p_item e)) (i_dir (p_item e))) (preorder D)
    /\ nf' = nf + total (map size_of xs)
    /\ exists s e, @dirtab_size fserr w' = Ok s /\ nth_error (preorder D) (length xs - 1) = Some e
        /\ p_off e + rec_len (p_item e) <= s < p_off e + rec_len (p_item e) + 4 /\ s mod 4 = 0
        /\ s <= len (entry_table t) < s + 2048.
Proof.
  intros H1 H2 H3 Hr Hne. destruct (disk_repr_facts m xs w w' nf t nf' H1 H2 H3 Hr Hne) as (d & HP & HS & HE & HD & Hs & -> & -> & Hds & HBal).
  assert (HP' : Permutation (preorder d) xs) by (transitivity (inorder d); auto; apply preorder_perm).
  assert (Hdn : d <> Leaf). { intros ->. cbn in HP. apply Permutation_nil in HP. auto. }
  exists (dtab nf d). cbn [entry_table file_listing].
  assert (Hin : map p_item (inorder (dtab nf d)) = inorder d) by (rewrite <- tmap_inorder, dtab_items; auto).
  assert (Hpre : map p_item (preorder (dtab nf d)) = preorder d) by (rewrite <- tmap_preorder, dtab_items; auto).
  ssplit; auto.
  - rewrite Hin. auto.
  - rewrite Hin. auto.
  - apply tab_records; auto.
  - apply tab_layout; auto.
  - rewrite Hpre. apply nth_error_ext. intros j.
    destruct (nth_error (preorder (dtab nf d)) j) as [e|] eqn:Ee.
    + rewrite (map_nth_error _ _ _ Ee). destruct (tab_entry nf d _ _ Ee) as (_ & _ & Hx & _). auto.
    + rewrite (proj2 (nth_error_None _ _)) by (rewrite map_length; apply nth_error_None; auto).
      symmetry. apply nth_error_None. rewrite starts_length, map_length, <- Hpre, map_length. apply nth_error_None; auto.
  - assert (Hlast : exists ls x, preorder d = ls ++ [x]).
    { destruct (exists_last (l := preorder d)) as (ls & x & E); [|eauto]. intros E. rewrite E in HP'. apply Permutation_nil in HP'. auto. }
    destruct Hlast as (ls & x & Els).
    assert (Hlen : (length xs - 1 = length ls)%nat).
    { rewrite <- (Permutation_length HP'), Els, app_length. cbn. lia. }
    rewrite Hlen.
    destruct (nth_error (preorder (dtab nf d)) (length ls)) as [e|] eqn:Ee.
    2:{ apply nth_error_None in Ee. rewrite <- (map_length p_item), Hpre, Els, app_length in Ee. cbn in Ee. lia. }
    destruct (tab_entry nf d _ _ Ee) as (A1 & A2 & _ & A4).
    rewrite Els in A1, A2. rewrite map_app in A1, A2. cbn [map] in *.
    rewrite <- (map_length ilen) in A1, A2.
    destruct (last_pend 0 (ilen x) (map ilen ls)) as (o & l' & P1 & P2 & _). rewrite P2 in A1. injection A1 as ->.
    rewrite nth_error_app2 in A2 by lia. rewrite Nat.sub_diag in A2. cbn in A2. injection A2 as A2.
    exists (pend 0 (map ilen (preorder d))), e.
    assert (Hpe : pend 0 (map ilen (preorder d)) = p_off e + ilen x) by (rewrite Els, map_app; cbn [map]; exact P1).
    pose proof (pad4_spec (rec_len (p_item e))) as Hp4. rewrite <- A2 in Hp4.
    pose proof (pend_mod4 0 _ (tab_ok d HE) eq_refl). 
    rewrite (tab_len nf d HE). ssplit; auto; lia.
Qed.

Lemma c10_lemma m xs w w' nf t nf' :
  add_items m xs = Ok w -> compute_size m w = Ok w' -> disk_repr m w' nf = Ok (t, nf') -> in_range nf xs -> xs <> [] ->
  exists D : dtree pent,
    Permutation (map p_item (inorder D)) xs /\ records (entry_table t) D
    /\ (forall l e r c cl e' cr, subtree (Node l e r) D -> c = l \/ c = r -> c = Node cl e' cr ->
          4 * child_ptr c = p_off e' /\ 0 < child_ptr c < 65535)
    /\ (exists l e r, D = Node l e r /\ p_off e = 0).
Proof.
  intros H1 H2 H3 Hr Hne. destruct (disk_repr_facts m xs w w' nf t nf' H1 H2 H3 Hr Hne) as (d & HP & HS & HE & HD & Hs & -> & -> & Hds & HBal).
  assert (Hdn : d <> Leaf). { intros ->. cbn in HP. apply Permutation_nil in HP. auto. }
  exists (dtab nf d). cbn [entry_table file_listing].
  assert (Hin : map p_item (inorder (dtab nf d)) = inorder d) by (rewrite <- tmap_inorder, dtab_items; auto).
  ssplit.
  - rewrite Hin. auto.
  - apply tab_records; auto.
  - intros l e r c cl e' cr Hsub Hc Ec.
    destruct (subtree_child_pos _ _ _ _ _ _ _ _ Hsub Hc Ec) as (j & Hj).
    pose proof (tab_nonroot_pos nf d HE _ _ Hj) as Hpos.
    pose proof (tab_offsets_small nf d Hs _ (nth_error_In _ _ Hj)) as Hsm.
    destruct (tab_layout nf d HE Hdn) as (Hlay & _). destruct (Hlay _ (nth_error_In _ _ Hj)) as (Hm & _).
    subst c. cbn [child_ptr]. unfold rec_len in Hsm. lia.
  - destruct d as [|l x r]; [congruence|]. unfold dtab. cbn [label]. do 3 eexists. split; [reflexivity|]. reflexivity.
Qed.

Lemma add_items_outcomes m xs : Forall size_fits xs ->
  (exists w, add_items m xs = Ok w /\ distinct xs /\ Forall short xs)
  \/ (add_items m xs = Err FileNameTooLong /\ exists x, In x xs /\ 255 < utf8_len (i_name x))
  \/ (add_items m xs = Err DuplicateFileName /\ ~ distinct xs).
Proof.
  intros HF. unfold add_items.
  destruct (add_items_run m xs [] writer_default Reach_nil HF I) as [(w1 & E1 & HR & HD & HS & _)|[(E1 & x & Hx & Hs)|(E1 & Hn)]].
  - left. eauto.
  - right; left. split; auto. exists x. split; auto. unfold short in Hs. lia.
  - right; right. auto.
Qed.

Lemma compute_size_outcomes m xs w : add_items m xs = Ok w -> Forall size_fits xs -> 544 * len xs < u32_modulus ->
  (exists w', compute_size m w = Ok w' /\ Forall (fun x => exists bs, decode_1252 bs = i_name x) xs)
  \/ (compute_size m w = Err WStringEncodingError /\ exists x c, In x xs /\ In c (i_name x) /\ forall b, decode_byte b <> c).
Proof.
  intros H1 HF HB. unfold add_items in H1.
  destruct (add_items_run m xs [] writer_default Reach_nil HF I) as [(w1 & E1 & HR & HD & HS & _)|[(E1 & _)|(E1 & _)]]; try congruence.
  rewrite H1 in E1. injection E1 as <-. cbn [app] in *.
  destruct (Reach_tree _ _ HR) as (d & order & HL & HP & HSo & HBal & Hlen).
  rewrite (compute_size_spec m w xs d order) by auto.
  destruct (forallb enc_b xs) eqn:He.
  - left. eexists. split; [reflexivity|]. apply forallb_enc in He; auto. eapply Forall_impl; [|exact He]. intros x [_ Hx]; auto.
  - right. split; auto. 
    assert (Hex : exists x, In x xs /\ enc_b x = false).
    { clear -He. induction xs as [|x xs IH]; cbn in He; [discriminate|]. destruct (enc_b x) eqn:Ex; [|exists x; cbn; auto].
      destruct (IH He) as (y & Hy & Hey). exists y. cbn; auto. }
    destruct Hex as (x & Hx & Hf). unfold enc_b in Hf. destruct (encode_1252 (i_name x)) eqn:En; [discriminate|].
    apply encode_none in En as (c & Hc & Hn). exists x, c. auto.
Qed.

(** ** C12, C13 *)
Lemma allocs_debug {E} sizes : forall acc nf r,
  foldM (fun st n => let* (nf', s) := @allocate_contiguous E Debug (snd st) n in Ok (fst st ++ [s], nf')) (acc, nf) sizes = Ok r ->
  r = (acc ++ starts nf sizes, nf + total sizes) /\ (nf < u32_modulus -> nf + total sizes < u32_modulus).
Proof.
  induction sizes as [|n sizes IH]; intros acc nf r H; cbn [foldM starts] in *.
  - injection H as <-. unfold total. cbn. rewrite app_nil_r, N.add_0_r. auto.
  - apply bind_ok in H as (st & Hst & H). cbn [fst snd] in Hst. apply bind_ok in Hst as ([nf' s] & Ha & Hst).
    injection Hst as <-. apply allocate_debug in Ha as (Ha & Hb). injection Ha as -> ->.
    apply IH in H as (-> & Hx). rewrite <- app_assoc. cbn [app]. unfold total in *. cbn [fold_right].
    split; [f_equal; lia|]. intros _. specialize (Hx Hb). lia.
Qed.

Lemma allocs_range {E} m sizes : forall acc nf, Forall (fun n => n < 2048 * (u32_modulus - 1)) sizes ->
  nf + total sizes < u32_modulus ->
  foldM (fun st n => let* (nf', s) := @allocate_contiguous E m (snd st) n in Ok (fst st ++ [s], nf')) (acc, nf) sizes
  = Ok (acc ++ starts nf sizes, nf + total sizes).
Proof.
  induction sizes as [|n sizes IH]; intros acc nf HF HT; cbn [foldM starts].
  - unfold total. cbn. rewrite app_nil_r, N.add_0_r. auto.
  - inversion HF; subst. unfold total in *. cbn [fold_right] in *. cbn [fst snd]. rewrite allocate_spec by lia. cbn [bind].
    rewrite IH by (auto; lia). rewrite <- app_assoc. cbn [app]. f_equal. f_equal. lia.
Qed.

Lemma starts_nth n sizes i s z : nth_error (starts n sizes) i = Some s -> nth_error sizes i = Some z ->
  s = n + total (firstn i sizes).
Proof.
  revert n i; induction sizes as [|y sizes IH]; intros n i; [destruct i; discriminate|].
  destruct i as [|i]; cbn [starts nth_error firstn].
  - intros E1 _. injection E1 as <-. unfold total. cbn. lia.
  - intros H1 H2. rewrite (IH _ _ H1 H2). unfold total. cbn [fold_right]. lia.
Qed.

Lemma starts_disjoint n sizes i j a b x y : (i < j)%nat ->
  nth_error (starts n sizes) i = Some a -> nth_error sizes i = Some x ->
  nth_error (starts n sizes) j = Some b -> nth_error sizes j = Some y ->
  n <= a /\ a + sectors x <= b.
Proof.
  revert n i j; induction sizes as [|z sizes IH]; intros n i j Hij H1 H2 H3 H4; [destruct i; discriminate|].
  destruct j as [|j]; [lia|]. cbn [starts nth_error] in H3, H4. destruct i as [|i]; cbn [starts nth_error] in H1, H2.
  - injection H1 as <-. injection H2 as <-. pose proof (starts_nth _ _ _ _ _ H3 H4). lia.
  - destruct (IH (n + sectors z) i j ltac:(lia) H1 H2 H3 H4). split; auto. lia.
Qed.

Lemma allocs_ok m nf sizes r : nf < u32_modulus ->
  allocs m nf sizes = Ok r ->
  (m = Debug \/ (nf + total sizes < u32_modulus /\ Forall (fun n => n < 2048 * (u32_modulus - 1)) sizes)) ->
  r = (starts nf sizes, nf + total sizes) /\ nf + total sizes < u32_modulus.
Proof.
  intros Hnf H [->|(H1 & H2)]; unfold allocs in H.
  - apply allocs_debug in H as (-> & H). auto.
  - rewrite allocs_range in H by auto. injection H as <-. auto.
Qed.

Lemma c12_lemma m sizes ss nf' :
  allocs m allocator_default sizes = Ok (ss, nf') ->
  (m = Debug \/ (33 + total sizes < u32_modulus /\ Forall (fun n => n < 2048 * (u32_modulus - 1)) sizes)) ->
  length ss = length sizes
  /\ (forall i s n, nth_error ss i = Some s -> nth_error sizes i = Some n ->
        33 <= s /\ n <= 2048 * sectors n /\ s + sectors n <= nf' /\ nf' < u32_modulus)
  /\ (forall s, nth_error ss 0 = Some s -> s = 33)
  /\ (forall i s n s', nth_error ss i = Some s -> nth_error sizes i = Some n -> nth_error ss (S i) = Some s' ->
        s' = s + sectors n)
  /\ (forall i j s n s', (i < j)%nat -> nth_error ss i = Some s -> nth_error sizes i = Some n -> nth_error ss j = Some s' ->
        s + sectors n <= s').
Proof.
  intros H Hm. change allocator_default with 33 in *.
  destruct (allocs_ok _ _ _ _ (eq_refl : 33 < u32_modulus) H Hm) as (E & Hb). injection E as -> ->.
  ssplit.
  - apply starts_length.
  - intros i s n Hs Hn. pose proof (starts_nth _ _ _ _ _ Hs Hn) as ->. ssplit; auto; [lia|apply sectors_enough|].
    assert (Ht : total sizes = total (firstn i sizes) + (sectors n + total (skipn (S i) sizes))); [|lia].
    { rewrite <- (firstn_skipn i sizes) at 1. rewrite total_app. f_equal.
      clear -Hn. revert i Hn; induction sizes as [|a l IH]; intros [|i] Hn; cbn in Hn; try discriminate.
      - injection Hn as ->. reflexivity.
      - cbn [skipn]. rewrite (IH _ Hn). reflexivity. }
  - intros s Hs. destruct sizes; cbn in Hs; [discriminate|]. congruence.
  - intros i s n s' Hs Hn Hs'.
    assert (Hn' : exists n', nth_error sizes (S i) = Some n').
    { destruct (nth_error sizes (S i)) eqn:E; eauto. apply nth_error_None in E. apply nth_error_lt in Hs'. rewrite starts_length in Hs'. lia. }
    destruct Hn' as (n' & Hn'). rewrite (starts_nth _ _ _ _ _ Hs Hn), (starts_nth _ _ _ _ _ Hs' Hn').
    assert (Ht : total (firstn (S i) sizes) = total (firstn i sizes) + sectors n); [|lia].
    clear -Hn. revert i Hn; induction sizes as [|a l IH]; intros [|i] Hn; cbn in Hn; try discriminate.
    + injection Hn as ->. unfold total. cbn. lia.
    + specialize (IH _ Hn). unfold total in *. cbn [firstn fold_right] in *. rewrite IH. lia.
  - intros i j s n s' Hij Hs Hn Hs'.
    destruct (nth_error sizes j) as [n'|] eqn:E; [|apply nth_error_None in E; apply nth_error_lt in Hs'; rewrite starts_length in Hs'; lia].
    eapply starts_disjoint; eauto.
Qed.

Lemma alloc_outcome {E} nf n : (exists r, @allocate_contiguous E Debug nf n = Ok r) \/ exists p, @allocate_contiguous E Debug nf n = Panic p.
Proof.
  unfold allocate_contiguous, required_sectors, u32_add.
  destruct (n =? 0); [|destruct (n / SECTOR_SIZE <? u32_modulus); [destruct (_ <? _)|]]; cbn [bind]; eauto;
  destruct (_ <? _); cbn [bind]; eauto.
Qed.

Lemma c13_lemma sizes :
  33 + total sizes >= u32_modulus -> exists p, allocs Debug allocator_default sizes = Panic p.
Proof.
  intros Ht. change allocator_default with 33. unfold allocs.
  assert (Hp : forall sizes acc nf, (exists r, foldM (fun st n => let* (nf', s) := @allocate_contiguous Empty_set Debug (snd st) n in Ok (fst st ++ [s], nf')) (acc, nf) sizes = Ok r)
     \/ exists p, foldM (fun st n => let* (nf', s) := @allocate_contiguous Empty_set Debug (snd st) n in Ok (fst st ++ [s], nf')) (acc, nf) sizes = Panic p).
  { clear. induction sizes as [|n sizes IH]; intros acc nf; cbn [foldM]; [eauto|]. cbn [fst snd].
    destruct (alloc_outcome (E := Empty_set) nf n) as [([nf' s'] & ->)|(p & ->)]; cbn [bind]; eauto. }
  destruct (Hp sizes [] 33) as [(r & Hr)|H]; auto.
  pose proof (allocs_debug _ _ _ _ Hr) as (_ & H). specialize (H eq_refl). lia.
Qed.

Lemma wrap_witness : exists sizes s1 s2 s3 nf', allocs Release allocator_default sizes = Ok ([s1; s2; s3], nf')
    /\ nth_error sizes 0 = Some 2048 /\ nth_error sizes 2 = Some 69632 /\ s1 = 33 /\ s3 = 0 /\ s3 + 34 = s1 + 1.
Proof.
  exists [2048; 2048 * (u32_modulus - 34); 69632], 33, 34, 0, 34. vm_compute. auto 10.
Qed.

Lemma empty_table m nf :
  exists w', compute_size m writer_default = Ok w' /\ @dirtab_size fserr w' = Ok 2048
    /\ disk_repr m w' nf = Ok (mkDiskTable (fill 2048 xff) [], nf).
Proof. exists (mkWriter avl_default (Some 0)). ssplit; reflexivity. Qed.
