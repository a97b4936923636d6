(** A table written by the writer, seen through a device, is a well-formed
    directory. *)
From Verif Require Import M_Base M_Util M_Layout M_Avl M_Sector M_Dirtab M_Read.
From Verif Require Import S_Avl S_Codec S_Table S_Read.
From Verif Require Import P_Base P_Codec P_Layout P_Place P_Dirtab P_Table P_Read P_Find P_Scan.
From Coq Require Import Init.Byte Permutation Sorted Lia.
Local Open Scope N_scope.

(** The bytes [b] are found at byte [base]. *)
Definition view (d : dev) (base : N) (b : list byte) : Prop :=
  forall o n, o + n <= len b -> d (base + o) n = Ok (slice b o n).

Definition ent_rel (sec : N) (e : pent) (e' : dentry) : Prop :=
  e_offset e' = 2048 * sec + p_off e /\ name_str e' = i_name (p_item e) /\ is_dir e' = i_dir (p_item e)
  /\ region_of e' = mkRegion (p_sector e) (size_of (p_item e)).

Lemma slice_app_l {A} (a b : list A) : slice (a ++ b) 0 (len a) = a.
Proof. unfold slice, len. change (N.to_nat 0) with 0%nat. rewrite skipn_O, Nat2N.id, firstn_app, Nat.sub_diag, firstn_all, firstn_O, app_nil_r. reflexivity. Qed.
Lemma slice_app_r {A} (a b : list A) : slice (a ++ b) (len a) (len b) = b.
Proof.
  unfold slice, len. rewrite !Nat2N.id, skipn_app, Nat.sub_diag, skipn_all, skipn_O. cbn. apply firstn_all.
Qed.

Section Stored.
Variables (d : dev) (sec : N) (b : list byte).
Hypothesis Hv : view d (2048 * sec) b.

Lemma stored_of_record e l r : record_at b e l r -> encodable (p_item e) ->
  child_ptr l < 65536 -> child_ptr r < 65536 -> p_sector e < u32_modulus -> size_of (p_item e) < u32_modulus ->
  exists e', stored d e' /\ d_left (e_node e') = child_ptr l /\ d_right (e_node e') = child_ptr r /\ ent_rel sec e e'.
Proof.
  intros (name & Hn & Hs & Hb) He Hl Hr Hse Hsz.
  assert (Hnl : len name < 256).
  { destruct (nm_spec _ He) as (_ & H1 & H2 & _). unfold name_of in Hn. rewrite H1 in H2. rewrite <- Hn in H2.
    unfold len in *. unfold decode_1252 in H2. rewrite map_length in H2. exact H2. }
  set (dn := mkDnode (child_ptr l) (child_ptr r) (mkDdata (mkRegion (p_sector e) (size_of (p_item e))) (attrs_of (p_item e)) (len name))) in *.
  pose proof (dnode_fields dn) as (F0 & F1 & F2 & F3 & F4 & F5 & F6). set (hdr := dnode_ser dn) in *.
  assert (Hhl : len hdr = 14) by (unfold len; rewrite F0; reflexivity).
  assert (Hh : slice b (p_off e) 14 = hdr).
  { rewrite <- (slice_app_l hdr name), Hhl, <- Hs. rewrite slice_slice by lia. rewrite N.add_0_r. reflexivity. }
  assert (Hnm : slice b (p_off e + 14) (len name) = name).
  { rewrite <- (slice_app_r hdr name) at 2. rewrite Hhl, <- Hs. rewrite slice_slice by lia. reflexivity. }
  exists (mkDentry dn (name ++ fill (256 - len name) x00) (2048 * sec + p_off e)).
  assert (Hat : attrs_of (p_item e) < 256 /\ attrs_of (p_item e) <> 0 /\ attrs_of (p_item e) <> 255).
  { unfold attrs_of. destruct (i_dir (p_item e)); repeat split; discriminate || reflexivity. }
  assert (Hbyte : forall x, hdr = fill 14 x -> attrs_of (p_item e) = b2n x).
  { intros x E. specialize (F5 0%nat (Nat.lt_0_succ _)). rewrite E in F5. cbn in F5. injection F5 as F5. rewrite F5.
    unfold byte_of. cbn. rewrite N.div_1_r. symmetry. apply N.mod_small. apply Hat. }
  split; [|split; [reflexivity|split; [reflexivity|]]].
  - exists hdr, name. cbn [e_offset e_node d_left d_right d_dirent d_region d_attrs d_namelen r_sector r_size dn e_name].
    ssplit; auto.
    + rewrite Hv by lia. rewrite Hh. reflexivity.
    + intros E. apply Hbyte in E. apply (proj2 (proj2 Hat)). exact E.
    + intros E. apply Hbyte in E. apply (proj1 (proj2 Hat)). exact E.
    + apply Hat.
    + rewrite <- N.add_assoc. rewrite Hv by lia. rewrite Hnm. reflexivity.
  - unfold ent_rel, name_str, name_slice, is_dir, region_of. cbn [e_offset e_node d_dirent d_region dn d_attrs e_name d_namelen].
    ssplit; auto.
    + unfold name_of in Hn. rewrite <- Hn. f_equal. apply slice_app_l.
    + unfold attrs_of. destruct (i_dir (p_item e)); reflexivity.
Qed.

Variables (sz : N) (D0 : dtree pent).
Hypothesis Hptr : forall l e r c cl e' cr, subtree (Node l e r) D0 -> c = l \/ c = r -> c = Node cl e' cr ->
          4 * child_ptr c = p_off e' /\ 0 < child_ptr c < 65535.
Hypothesis Hrec : records b D0.
Hypothesis Henc : forall e, In e (preorder D0) -> encodable (p_item e) /\ p_sector e < u32_modulus /\ size_of (p_item e) < u32_modulus /\ p_off e < sz.

Lemma child_ptr_small l e r c : subtree (Node l e r) D0 -> c = l \/ c = r -> child_ptr c < 65536.
Proof.
  intros Hsub Hc. destruct c as [|cl e' cr]; [cbn; lia|].
  destruct (Hptr _ _ _ _ _ _ _ Hsub Hc eq_refl). lia.
Qed.

Lemma records_sub D : subtree D D0 -> records b D.
Proof.
  clear -Hrec. intros Hs. revert Hrec. induction Hs as [|? ? ? ? ? IH|? ? ? ? ? IH]; cbn; auto; intros (H1 & H2 & H3); auto.
Qed.

Lemma sub_trans {T} (x y z : dtree T) : subtree x y -> subtree y z -> subtree x z.
Proof. intros H1 H2. induction H2; [auto|apply sub_left; auto|apply sub_right; auto]. Qed.

Lemma tree_of_records D : subtree D D0 -> exists T,
  Forall2 (ent_rel sec) (inorder D) (inorder T) /\ Forall2 (ent_rel sec) (preorder D) (preorder T)
  /\ match D with
     | Leaf => T = Leaf
     | Node _ e _ => T <> Leaf /\ tree_at d (mkRegion sec sz) (p_off e) T
     end
  /\ tmap (fun _ => tt) T = tmap (fun _ => tt) D.
Proof.
  induction D as [|l IHl e r IHr]; intros Hs.
  - exists Leaf. repeat constructor.
  - assert (Hsl : subtree l D0) by (eapply sub_trans; [|exact Hs]; apply sub_left; constructor).
    assert (Hsr : subtree r D0) by (eapply sub_trans; [|exact Hs]; apply sub_right; constructor).
    destruct (IHl Hsl) as (L & HL1 & HL2 & HL3 & HL4'). destruct (IHr Hsr) as (R & HR1 & HR2 & HR3 & HR4').
    assert (Hin : In e (preorder D0)) by (eapply subtree_in; [exact Hs|reflexivity]).
    destruct (Henc e Hin) as (E1 & E2 & E3 & E4).
    pose proof (records_sub _ Hs) as (Hr1 & _ & _).
    destruct (stored_of_record e l r Hr1 E1) as (e' & S1 & S2 & S3 & S4); auto; try (eapply child_ptr_small; eauto).
    exists (Node L e' R). split; [|split; [|split; [|cbn [tmap]; rewrite HL4', HR4'; reflexivity]]].
    + cbn. apply Forall2_app; auto.
    + cbn. constructor; auto. apply Forall2_app; auto.
    + split; [discriminate|]. cbn [tree_at r_size r_sector]. pose proof S4 as (S4a & _). ssplit; auto.
      * destruct l as [|ll le lr].
        -- rewrite HL3. rewrite S2. reflexivity.
        -- destruct HL3 as (HL3 & HL4). destruct L as [|? ? ?]; [congruence|].
           destruct (Hptr _ _ _ _ _ _ _ Hs (or_introl eq_refl) eq_refl) as (P1 & P2).
           rewrite S2. split; [exact P2|]. rewrite P1. exact HL4.
      * destruct r as [|ll le lr].
        -- rewrite HR3. rewrite S3. reflexivity.
        -- destruct HR3 as (HR3 & HR4). destruct R as [|? ? ?]; [congruence|].
           destruct (Hptr _ _ _ _ _ _ _ Hs (or_intror eq_refl) eq_refl) as (P1 & P2).
           rewrite S3. split; [exact P2|]. rewrite P1. exact HR4.
Qed.
End Stored.

Lemma tree_at_stored d r T : forall o, tree_at d r o T -> Forall (stored d) (preorder T).
Proof.
  induction T as [|l IHl e r' IHr]; intros o; cbn [tree_at preorder]; [tauto|]. intros (_ & _ & Hs & Hl & Hr). constructor; auto. apply Forall_app. split.
  - destruct l as [|ll le lr]; [constructor|]. eapply IHl. apply Hl.
  - destruct r' as [|ll le lr]; [constructor|]. eapply IHr. apply Hr.
Qed.

Lemma stored_namelen d e : stored d e -> d_namelen (d_dirent (e_node e)) = len (name_str e).
Proof.
  intros (hdr & name & _ & _ & _ & _ & _ & _ & _ & _ & _ & _ & _ & _ & _ & _ & H1 & H2 & _ & H3).
  unfold name_str, name_slice. rewrite H1, H3. unfold decode_1252, len. rewrite map_length. f_equal.
  unfold slice. change (N.to_nat 0) with 0%nat. rewrite skipn_O, firstn_length, app_length, Nat2N.id. lia.
Qed.

(** The layout of the writer is the one that the scan follows. *)
Lemma lay_of_layout d sec b es es' : Forall2 (ent_rel sec) es es' -> Forall (stored d) es' -> forall a,
  map p_off es = place a (map ilen (map p_item es)) -> Forall plen_ok (map ilen (map p_item es)) ->
  pend a (map ilen (map p_item es)) <= len b ->
  (forall i, a <= i < len b -> (forall e, In e es -> ~ (p_off e <= i < p_off e + rec_len (p_item e))) -> nth_error b (N.to_nat i) = Some xff) ->
  lay d sec b a es'.
Proof.
  induction 1 as [|e e' es es' He HF IH]; intros Hst a Ho Hp Hend Hgap; cbn [map place pend] in *.
  - constructor. intros i Hi. apply Hgap; auto.
  - inversion Hst as [|? ? S1 S2]; subst. inversion Hp as [|? ? P1 P2]; subst. injection Ho as Ho1 Ho2.
    destruct He as (E1 & E2 & E3 & E4). pose proof (pend_ge (anext a (ilen (p_item e)) + ilen (p_item e)) (map ilen (map p_item es))) as Hge.
    assert (El : ilen (p_item e) = pad4 (14 + d_namelen (d_dirent (e_node e')))).
    { unfold ilen. rewrite (stored_namelen _ _ S1), E2. reflexivity. }
    assert (Hrec : rec_len (p_item e) <= ilen (p_item e)).
    { unfold ilen. pose proof (pad4_spec (14 + len (i_name (p_item e)))). unfold rec_len, len in *. lia. }
    eapply lay_cons; [exact El|exact P1| | |exact S1| |].
    + rewrite E1, Ho1. reflexivity.
    + lia.
    + intros i Hi. pose proof (anext_ge a (ilen (p_item e))). apply Hgap; [unfold plen_ok in P1; lia|]. intros f [<-|Hf]; [lia|].
      assert (Hpo : In (p_off f) (place (anext a (ilen (p_item e)) + ilen (p_item e)) (map ilen (map p_item es)))).
      { rewrite <- Ho2. apply in_map. exact Hf. }
      apply place_in in Hpo. lia.
    + apply IH; auto. intros i Hi Hno. pose proof (anext_ge a (ilen (p_item e))). apply Hgap; [lia|]. intros f [<-|Hf]; [lia|auto].
Qed.

Lemma starts_le sizes : forall n i s z, nth_error (starts n sizes) i = Some s -> nth_error sizes i = Some z ->
  n <= s /\ s + sectors z <= n + total sizes.
Proof.
  induction sizes as [|y sizes IH]; intros n i s z H1 H2; [destruct i; discriminate|]. unfold total. cbn [fold_right]. fold (total sizes).
  destruct i as [|i]; cbn [nth_error starts] in *.
  - injection H1 as <-. injection H2 as <-. lia.
  - destruct (IH _ _ _ _ H1 H2). lia.
Qed.

Lemma tmap_shape {A B} (f : A -> B) d : balanced (tmap f d) -> balanced (tmap (fun _ => tt) d).
Proof. induction d as [|l IHl x r IHr]; cbn; [auto|]. rewrite !tmap_depth. intros (H1 & H2 & H3 & H4). auto. Qed.
Lemma pend_min xs : forall e, e + 16 * len xs <= pend e (map ilen xs).
Proof.
  induction xs as [|x xs IH]; intros e; cbn [map pend]; [rewrite (@len_nil item); lia|]. rewrite len_cons. specialize (IH (anext e (ilen x) + ilen x)).
  pose proof (anext_ge e (ilen x)). assert (16 <= ilen x) by (unfold ilen; pose proof (pad4_spec (14 + len (i_name x))); lia). lia.
Qed.

(** ** Everything about a table, empty or not *)
Lemma table_facts m xs w w' nf t nf' :
  add_items m xs = Ok w -> compute_size m w = Ok w' -> disk_repr m w' nf = Ok (t, nf') -> in_range nf xs ->
  exists (D : dtree pent) s,
    Permutation (map p_item (inorder D)) xs /\ distinct xs
    /\ file_listing t = map lst (preorder D)
    /\ map p_sector (preorder D) = starts nf (map size_of (map p_item (preorder D)))
    /\ nf' = nf + total (map size_of xs)
    /\ (forall E, @dirtab_size E w' = Ok s) /\ 0 < s <= 262144 /\ len (entry_table t) = 2048 * sectors s
    /\ (forall d sec sz, view d (2048 * sec) (entry_table t) -> s <= sz ->
          exists T, directory d (mkRegion sec sz) T /\ Forall2 (ent_rel sec) (inorder D) (inorder T)
                 /\ Forall2 (ent_rel sec) (preorder D) (preorder T)
                 /\ (lawful d -> sectors sz = sectors s -> returns (fun fuel => scan_all fuel d (mkRegion sec sz)) (Ok (map in_sector (preorder T))))
                 /\ balanced T /\ 16 * len (inorder T) <= s).
Proof.
  intros H1 H2 H3 Hr. destruct xs as [|x0 xs0] eqn:Exs.
  - destruct (empty_table m nf) as (w0 & E1 & E2 & E3). cbn in H1. injection H1 as <-. rewrite E1 in H2. injection H2 as <-.
    rewrite E3 in H3. injection H3 as <- <-.
    exists Leaf, 2048. cbn [inorder preorder map file_listing starts total fold_right entry_table]. ssplit; auto.
    all: try solve [unfold total; cbn; lia]; try lia.
    + intros E. cbn in E1. injection E1 as <-. reflexivity.
    + intros d sec sz Hv Hs. exists Leaf. ssplit; [|constructor|constructor| |exact I|vm_compute; discriminate].
      2: { intros HLw Hse. apply (scan_layout d sec (fill 2048 xff) 1 HLw eq_refl Hv); [lia| |].
           - unfold sectors in Hse. destruct (N.eqb_spec sz 0); [lia|]. exact Hse.
           - constructor. intros i Hi. rewrite len_fill in Hi. unfold fill. apply nth_error_repeat. lia. }
      split; [|constructor].
      cbn [r_size r_sector]. split; [lia|]. left. specialize (Hv 0 14). rewrite N.add_0_r in Hv. rewrite Hv; [vm_compute; reflexivity|rewrite len_fill; lia].
  - rewrite <- Exs in *. assert (Hne : xs <> []) by (rewrite Exs; discriminate). clear Exs x0 xs0.
    destruct (disk_repr_facts m xs w w' nf t nf' H1 H2 H3 Hr Hne) as (d & HP & HS & HE & HD & Hs & Et & Enf & Hds & HBal).
    assert (HP' : Permutation (preorder d) xs) by (transitivity (inorder d); auto; apply preorder_perm).
    assert (Hdn : d <> Leaf). { intros ->. cbn in HP. apply Permutation_nil in HP. auto. }
    assert (Hin : map p_item (inorder (dtab nf d)) = inorder d) by (rewrite <- tmap_inorder, dtab_items; auto).
    assert (Hpre : map p_item (preorder (dtab nf d)) = preorder d) by (rewrite <- tmap_preorder, dtab_items; auto).
    pose proof (tab_ok d HE) as Hok.
    assert (Hpos : 0 < pend 0 (map ilen (preorder d))).
    { destruct d as [|dl dx dr]; [congruence|]. cbn [preorder map pend] in *. inversion Hok as [|? ? Hok1 ?]; subst.
      pose proof (pend_ge (anext 0 (ilen dx) + ilen dx) (map ilen (preorder dl ++ preorder dr))). unfold plen_ok in Hok1. lia. }
    assert (Hst : map p_sector (preorder (dtab nf d)) = starts nf (map size_of (map p_item (preorder (dtab nf d))))).
    { rewrite Hpre. apply nth_error_ext. intros j.
      destruct (nth_error (preorder (dtab nf d)) j) as [e|] eqn:Ee.
      + rewrite (map_nth_error _ _ _ Ee). destruct (tab_entry nf d _ _ Ee) as (_ & _ & Hx & _). auto.
      + rewrite (proj2 (nth_error_None _ _)) by (rewrite map_length; apply nth_error_None; auto).
        symmetry. apply nth_error_None. rewrite starts_length, map_length, <- Hpre, map_length. apply nth_error_None; auto. }
    exists (dtab nf d), (pend 0 (map ilen (preorder d))). subst t. cbn [entry_table file_listing].
    ssplit; auto.
    + rewrite Hin. exact HP.
    + intros E. unfold dirtab_size in *. destruct (table_is_empty w'); cbn in *; [congruence|]. destruct (w_size w'); cbn in *; congruence.
    + rewrite (tab_len nf d HE). unfold sectors. destruct (N.eqb_spec (pend 0 (map ilen (preorder d))) 0); lia.
    + intros dv sec sz Hv Hsz.
      destruct Hr as (HF & HB & Hnf).
      assert (Htot : total (map size_of (preorder d)) = total (map size_of xs)) by (apply total_perm; exact HP').
      destruct (tree_of_records dv sec (table_bytes (dtab nf d)) Hv sz (dtab nf d)) with (D := dtab nf d) as (T & HT1 & HT2 & HT3 & HT5).
      * intros l e r c cl e' cr Hsub Hc Ec.
        destruct (subtree_child_pos _ _ _ _ _ _ _ _ Hsub Hc Ec) as (j & Hj).
        pose proof (tab_nonroot_pos nf d HE _ _ Hj) as Hpos'.
        pose proof (tab_offsets_small nf d Hs _ (nth_error_In _ _ Hj)) as Hsm.
        destruct (tab_layout nf d HE Hdn) as (Hlay & _). destruct (Hlay _ (nth_error_In _ _ Hj)) as (Hm & _).
        subst c. cbn [child_ptr]. unfold rec_len in Hsm. lia.
      * apply tab_records; auto.
      * intros e He. apply In_nth_error in He as (j & Hj). destruct (tab_entry nf d _ _ Hj) as (A1 & A2 & A3 & A4).
        apply nth_error_In in A4 as A4'. rewrite Forall_forall in HE. ssplit.
        -- apply HE. exact A4'.
        -- assert (Hz : nth_error (map size_of (preorder d)) j = Some (size_of (p_item e))) by (apply map_nth_error; exact A4).
           pose proof (starts_le _ _ _ _ _ A3 Hz) as B. rewrite Htot in B. pose proof (sectors_pos (size_of (p_item e))). lia.
        -- rewrite Forall_forall in HF. apply (HF (p_item e)). eapply Permutation_in; [exact HP'|exact A4'].
        -- apply nth_error_In in A1. pose proof (place_in_end _ _ _ Hok A1). lia.
      * constructor.
      * assert (Hta : exists o, tree_at dv (mkRegion sec sz) o T).
        { destruct d as [|dl dx dr]; [congruence|]. unfold dtab in HT3. cbn [label] in HT3. destruct HT3 as (_ & HT4). eauto. }
        exists T. ssplit; auto.
        3: { apply (tmap_balanced (fun _ => tt)). rewrite HT5. apply (tmap_shape p_item). rewrite dtab_items. exact HBal. }
        3: { assert (EL : length (inorder (dtab nf d)) = length (inorder T)) by (clear -HT1; induction HT1; cbn; congruence). unfold len. rewrite <- EL, <- (map_length p_item), Hin, <- (Permutation_length (preorder_perm d)).
             pose proof (pend_min (preorder d) 0) as Hm. unfold len in Hm. lia. }
        2: { intros HLw Hse. destruct Hta as (o & Hta).
             destruct (tab_layout nf d HE Hdn) as (Q1 & Q2 & Q3 & Q4 & Q5).
             assert (Hlen : len (table_bytes (dtab nf d)) = 2048 * sectors (pend 0 (map ilen (preorder d)))).
             { rewrite (tab_len nf d HE). unfold sectors. destruct (N.eqb_spec (pend 0 (map ilen (preorder d))) 0); lia. }
             apply (scan_layout dv sec (table_bytes (dtab nf d)) (sectors (pend 0 (map ilen (preorder d)))) HLw Hlen Hv).
             - apply sectors_pos.
             - rewrite <- Hse. unfold sectors. destruct (N.eqb_spec sz 0); [lia|reflexivity].
             - eapply lay_of_layout; [exact HT2|eapply tree_at_stored; exact Hta| | | |].
               + rewrite Hpre. apply nth_error_ext. intros j. destruct (nth_error (preorder (dtab nf d)) j) as [e|] eqn:Ee.
                 * rewrite (map_nth_error _ _ _ Ee). destruct (tab_entry nf d _ _ Ee) as (Hx & _). auto.
                 * rewrite (proj2 (nth_error_None _ _)) by (rewrite map_length; apply nth_error_None; auto).
                   symmetry. apply nth_error_None. rewrite place_length, map_length, <- Hpre, map_length. apply nth_error_None; auto.
               + rewrite Hpre. exact Hok.
               + rewrite Hpre, Hlen. apply sectors_enough.
               + intros i Hi Hno. destruct (nth_error (table_bytes (dtab nf d)) (N.to_nat i)) as [c|] eqn:Ec.
                 * rewrite (Q3 _ _ Ec); auto. intros e He Hc. apply (Hno e He). lia.
                 * apply nth_error_None in Ec. unfold len in Hi. lia. }
        split.
        -- destruct d as [|dl dx dr]; [congruence|]. unfold dtab in HT3. cbn [label] in HT3. destruct HT3 as (HT3 & HT4).
           destruct T; [congruence|]. exact HT4.
        -- rewrite <- Hin in HS. clear -HS HT1. unfold strictly_sorted in *. revert HS.
           induction HT1 as [|e e' l l' He Hl IH]; intros HS; [constructor|]. cbn in HS. inversion HS as [|? ? Q1 Q2]; subst.
           constructor; [apply IH; auto|]. clear -He Hl Q2. rewrite Forall_map in Q2.
           induction Hl as [|f f' l l' Hf Hl IH]; constructor; inversion Q2; subst; auto.
           destruct He as (_ & -> & _). destruct Hf as (_ & -> & _). assumption.
Qed.
