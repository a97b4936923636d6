(** AVL: rebalancing after insertion, and insertion. *)
From Verif Require Import M_Base M_Avl P_Base P_Avl.
From Coq Require Import ZifyBool ZifyNat ZifyN Permutation Sorted Arith.

Definition lean (s : tr) (d : dir) : Prop :=
  match s with
  | E => False
  | B l _ r => match d with
               | DLeft => ht l = (1 + ht r)%Z
               | DRight => ht r = (1 + ht l)%Z
               | DLeaf => l = E /\ r = E
               end
  end.

Lemma plug_nodup c s : NoDup (ino (plug c s)) <-> NoDup (ino s ++ celems c).
Proof.
  rewrite plug_ino.
  assert (H : Permutation (cl c ++ ino s ++ cr c) (ino s ++ celems c)).
  { rewrite celems_perm. rewrite (Permutation_app_comm (cl c) (ino s ++ cr c)), <- app_assoc.
    apply Permutation_app_head. apply Permutation_app_comm. }
  split; apply Permutation_NoDup; [auto | symmetry; auto].
Qed.

Section P.
Context {T : Type}.
Notation node := (node T).
Notation avl := (avl T).
Implicit Types (ns : list node) (t : avl).

(** When the focus has kept its height nothing above it changes. *)
Lemma loop_settled c : forall fuel t l i r d prev,
  length c < fuel ->
  repr (tree t) (plug c (B l i r)) None -> bal (plug c (B l i r)) ->
  NoDup (ino (plug c (B l i r))) ->
  rebalance_loop fuel t (Some (i, d)) prev = Ok t.
Proof.
  induction c as [|f c IH]; intros fuel t l i r d prev Hf Hr Hb Hnd; (destruct fuel as [|fuel]; [lia|]);
    pose proof (unplug_repr _ _ _ Hr Hb) as (Hs & Hbs & Hc); cbn [rebalance_loop];
    rewrite (update_node_height_same _ _ _ _ _ Hs); cbn [bind];
    destruct Hs as (n & Hn & Hl & Hrr & Hp & Hh & Hrl & Hrr');
    rewrite (balance_factor_ok _ _ _ _ _ _ _ Hn Hl Hrr Hrl Hrr'); cbn [bind];
    cbn [bal] in Hbs; destruct Hbs as (_ & _ & Hbf);
    (replace ((-1 <=? ht l - ht r) && (ht l - ht r <=? 1))%Z with true by lia); cbn [bind].
  - rewrite (parent_direction_nil _ _ _ Hn Hp). cbn [bind]. destruct fuel; reflexivity.
  - apply plug_nodup in Hnd.
    rewrite (parent_direction_cons _ _ _ _ _ _ Hn Hp Hc).
    + cbn [bind]. cbn [plug] in Hr, Hb. destruct f as [q x|x q]; cbn [fidx fdir plug1] in *;
        (eapply IH; [cbn in Hf; lia | exact Hr | exact Hb | ]).
      * apply plug_nodup in Hnd. auto.
      * apply plug_nodup in Hnd. auto.
    + apply NoDup_app_inv in Hnd. destruct Hnd as (_ & _ & Hx). intros Hin.
      apply (Hx i); [apply rt_in; reflexivity|]. cbn [celems felems]. cbn. rewrite in_app_iff. auto.
Qed.

(** After a rotation the loop visits the new root of the subtree (and then
    everything above it, unchanged). *)
Lemma loop_after_rotation c fuel t l i r f a cur :
  length c < fuel ->
  (f = FL i r /\ rt l = Some a \/ f = FR l i /\ rt r = Some a) ->
  repr (tree t) (plug c (B l i r)) None -> bal (plug c (B l i r)) ->
  NoDup (ino (plug c (B l i r))) ->
  (let* next := parent_direction t a in rebalance_loop fuel t next cur) = Ok t.
Proof.
  intros Hf Hfr Hr Hb Hnd.
  assert (Hpd : exists d, parent_direction t a = Ok (Some (i, d))).
  { destruct Hfr as [[-> Ha]|[-> Ha]].
    - destruct (unplug_repr (tree t) (FL i r :: c) l) as (Hs & Hbs & Hc); auto.
      exists DLeft. destruct l as [|l1 a' l2]; [discriminate|]. injection Ha as ->.
      destruct Hs as (n & Hn & _ & _ & Hp & _).
      apply (parent_direction_cons _ _ _ _ _ _ Hn Hp Hc). cbn [fsib].
      apply (plug_nodup (FL i r :: c)) in Hnd. apply NoDup_app_inv in Hnd. destruct Hnd as (_ & _ & Hx). intros Hin.
      apply (Hx a); [apply rt_in; reflexivity|]. cbn. rewrite in_app_iff. auto.
    - destruct (unplug_repr (tree t) (FR l i :: c) r) as (Hs & Hbs & Hc); auto.
      exists DRight. destruct r as [|l1 a' l2]; [discriminate|]. injection Ha as ->.
      destruct Hs as (n & Hn & _ & _ & Hp & _).
      apply (parent_direction_cons _ _ _ _ _ _ Hn Hp Hc). cbn [fsib].
      apply (plug_nodup (FR l i :: c)) in Hnd. apply NoDup_app_inv in Hnd. destruct Hnd as (_ & _ & Hx). intros Hin.
      apply (Hx a); [apply rt_in; reflexivity|]. cbn. rewrite in_app_iff. auto. }
  destruct Hpd as [d ->]. cbn [bind]. eapply loop_settled; eauto.
Qed.

Lemma repr_focus_height ns l i r p n :
  nth_error ns i = Some n -> left_node n = rt l -> right_node n = rt r -> parent n = p ->
  repr ns l (Some i) -> repr ns r (Some i) -> NoDup (ino (B l i r)) ->
  repr (upd ns i (with_height (1 + Z.max (ht l) (ht r)) n)) (B l i r) p.
Proof.
  intros Hn Hl Hr Hp Hrl Hrr Hnd. cbn in Hnd. apply NoDup_app_inv in Hnd.
  destruct Hnd as (_ & Hnd & Hx). rewrite NoDup_cons_iff in Hnd.
  exists (with_height (1 + Z.max (ht l) (ht r)) n). rewrite nth_upd_eq by (eapply nth_error_lt; eauto).
  cbn [left_node right_node parent height with_height]. ssplit; auto.
  - eapply repr_frame; [|exact Hrl]. intros j Hj. apply nth_upd_ne. intros ->. apply (Hx j); cbn; auto.
  - eapply repr_frame; [|exact Hrr]. intros j Hj. apply nth_upd_ne. intros ->. tauto.
Qed.

(** The rotation step: a node whose growing child has become two higher than
    the other one. *)
Lemma rotation_step f c t s b pd h n :
  root t = rootof (f :: c) (rt s) -> rt s = Some b ->
  repr (tree t) s (Some (fidx f)) -> bal s ->
  nth_error (tree t) (fidx f) = Some n ->
  (match f with FL _ r => left_node n = rt s /\ right_node n = rt r
              | FR l _ => left_node n = rt l /\ right_node n = rt s end) ->
  parent n = cpar c -> repr (tree t) (fsib f) (Some (fidx f)) -> bal (fsib f) ->
  crepr (tree t) c (Some (fidx f)) (1 + Z.max h (ht (fsib f))) ->
  ht s = (h + 1)%Z -> lean s pd ->
  (h = 1 + ht (fsib f))%Z ->
  NoDup (ino (plug (f :: c) s)) ->
  exists k nb t' l' i' r' g,
    nth_error (tree t) b = Some nb /\ child_from_direction nb pd = Some k
    /\ perform_rotation t (fidx f) b k (fdir f) pd = Ok t'
    /\ root t' = rootof c (Some i')
    /\ repr (tree t') (B l' i' r') (cpar c)
    /\ crepr (tree t') c (Some i') (1 + Z.max h (ht (fsib f)))
    /\ length (tree t') = length (tree t)
    /\ bal (B l' i' r') /\ ht (B l' i' r') = (1 + Z.max h (ht (fsib f)))%Z
    /\ ino (B l' i' r') = ino (plug1 f s)
    /\ (g = FL i' r' /\ rt l' = Some (fidx f) \/ g = FR l' i' /\ rt r' = Some (fidx f)).
Proof.
  intros Hroot Hb Hs Hbs Hn Hlr Hp Hrs Hbsib Hc Hht Hlean Hh Hnd.
  destruct s as [|sl b' sr]; [discriminate|]. injection Hb as ->.
  pose proof (ht_nonneg (fsib f)) as Hpos.
  cbn [plug] in Hnd. apply plug_nodup in Hnd.
  cbn [bal] in Hbs. destruct Hbs as (Hbl & Hbr & Hbd).
  cbn [ht] in Hht.
  pose proof Hs as Hs0. destruct Hs0 as (nb & Hnb & Hnbl & Hnbr & _ & _ & _ & _).
  destruct f as [a o|o a]; cbn [fidx fsib fdir plug1 rootof] in *; destruct Hlr as [Hl Hr].
  - destruct pd; cbn [lean] in Hlean.
    + (* left-left *)
      destruct sl as [|x1 k x2]; [cbn [ht] in *; pose proof (ht_nonneg sr); lia|].
      destruct (r_rotate_spec t c (1 + Z.max h (ht o)) x1 k x2 b sr a o n) as (t' & Ht' & H1 & H2 & H3 & H4); auto.
      exists k, nb, t', (B x1 k x2), b, (B sr a o), (FR (B x1 k x2) b).
      ssplit; auto.
      * cbn [ht bal] in *. ssplit; tauto || lia.
      * cbn [ht] in *. lia.
      * cbn [ino]. rewrite <- !app_assoc. reflexivity.
    + (* left-right *)
      destruct sr as [|y1 k y2]; [cbn [ht] in *; pose proof (ht_nonneg sl); lia|].
      destruct (lr_rotate_spec t c (1 + Z.max h (ht o)) sl b y1 k y2 a o n) as (t' & Ht' & H1 & H2 & H3 & H4); auto.
      exists k, nb, t', (B sl b y1), k, (B y2 a o), (FR (B sl b y1) k).
      ssplit; auto.
      * cbn [ht bal] in *. ssplit; tauto || lia.
      * cbn [ht bal] in *. lia.
      * cbn [ino]. repeat (rewrite <- !app_assoc || cbn [app]). reflexivity.
    + (* leaf: impossible *)
      destruct Hlean as [-> ->]. cbn [ht] in *. lia.
  - destruct pd; cbn [lean] in Hlean.
    + (* right-left *)
      destruct sl as [|y1 k y2]; [cbn [ht] in *; pose proof (ht_nonneg sr); lia|].
      destruct (rl_rotate_spec t c (1 + Z.max h (ht o)) sr b y1 k y2 a o n) as (t' & Ht' & H1 & H2 & H3 & H4); auto.
      exists k, nb, t', (B o a y1), k, (B y2 b sr), (FL k (B y2 b sr)).
      ssplit; auto.
      * cbn [ht bal] in *. ssplit; tauto || lia.
      * cbn [ht bal] in *. lia.
      * cbn [ino]. repeat (rewrite <- !app_assoc || cbn [app]). reflexivity.
    + (* right-right *)
      destruct sr as [|x1 k x2]; [cbn [ht] in *; pose proof (ht_nonneg sl); lia|].
      destruct (l_rotate_spec t c (1 + Z.max h (ht o)) x1 k x2 b sl a o n) as (t' & Ht' & H1 & H2 & H3 & H4); auto.
      exists k, nb, t', (B o a sl), b, (B x1 k x2), (FL b (B x1 k x2)).
      ssplit; auto.
      * cbn [ht bal] in *. ssplit; tauto || lia.
      * cbn [ht] in *. lia.
      * cbn [ino]. repeat (rewrite <- !app_assoc || cbn [app]). reflexivity.
    + destruct Hlean as [-> ->]. cbn [ht] in *. lia.
Qed.

(** The way up: the focus [s] has grown by one. *)
Lemma loop_up c : forall fuel t s b pd h,
  length c + 1 < fuel ->
  root t = rootof c (rt s) -> rt s = Some b ->
  repr (tree t) s (cpar c) -> bal s ->
  crepr (tree t) c (rt s) h -> ht s = (h + 1)%Z -> lean s pd ->
  NoDup (ino (plug c s)) ->
  exists t' s',
    (let* next := parent_direction t b in rebalance_loop fuel t next (Some (b, pd))) = Ok t'
    /\ root t' = rt s' /\ repr (tree t') s' None /\ bal s' /\ ino s' = ino (plug c s)
    /\ length (tree t') = length (tree t).
Proof.
  induction c as [|f c IH]; intros fuel t s b pd h Hf Hroot Hb Hs Hbs Hc Hht Hlean Hnd;
    (destruct fuel as [|fuel]; [lia|]).
  - destruct s as [|l b' r]; [discriminate|]. injection Hb as ->.
    pose proof Hs as Hs0. destruct Hs0 as (n & Hn & _ & _ & Hp & _).
    rewrite (parent_direction_nil _ _ _ Hn Hp). cbn [bind rebalance_loop].
    exists t, (B l b r). ssplit; auto.
  - destruct s as [|sl b' sr]; [discriminate|]. injection Hb as ->.
    pose proof Hs as Hs0. destruct Hs0 as (n & Hn & Hnl & Hnr & Hp & _).
    assert (Hsib : ~ In b (ino (fsib f))).
    { apply plug_nodup in Hnd. apply NoDup_app_inv in Hnd. destruct Hnd as (_ & _ & Hx). intros Hin.
      apply (Hx b); [apply rt_in; reflexivity|]. cbn. rewrite in_app_iff. auto. }
    rewrite (parent_direction_cons _ _ _ _ _ _ Hn Hp Hc Hsib). cbn [bind rebalance_loop].
    pose proof Hc as Hc0. destruct Hc0 as (m & Hm & Hlr & Hpm & Hhm & Hbb & Hrs & Hbsib & Hc').
    set (s := B sl b sr) in *.
    set (L := match f with FL _ _ => s | FR l _ => l end).
    set (R := match f with FL _ r => r | FR _ _ => s end).
    assert (Hplug1 : plug1 f s = B L (fidx f) R) by (destruct f; reflexivity).
    assert (HL : left_node m = rt L) by (destruct f; cbn in *; tauto).
    assert (HR : right_node m = rt R) by (destruct f; cbn in *; tauto).
    assert (HrL : repr (tree t) L (Some (fidx f))) by (destruct f; cbn [L fsib fidx cpar] in *; auto).
    assert (HrR : repr (tree t) R (Some (fidx f))) by (destruct f; cbn [R fsib fidx cpar] in *; auto).
    assert (Hmax : Z.max (ht L) (ht R) = Z.max (ht s) (ht (fsib f))) by (unfold L, R; destruct f; cbn [fsib]; lia).
    assert (Hdiff : (-1 <= ht L - ht R <= 1)%Z <-> (-1 <= ht s - ht (fsib f) <= 1)%Z)
      by (unfold L, R; destruct f; cbn [fsib]; lia).
    rewrite (update_node_height_ok _ _ _ _ _ _ _ Hm HL HR HrL HrR). cbn [bind].
    set (t1 := mkAvl (root t) (upd (tree t) (fidx f) (with_height (1 + Z.max (ht L) (ht R)) m))).
    assert (Hnd1 : NoDup (ino (B L (fidx f) R) ++ celems c)).
    { rewrite <- Hplug1. apply plug_nodup. exact Hnd. }
    assert (HndLR : NoDup (ino (B L (fidx f) R))) by (apply NoDup_app_inv in Hnd1; tauto).
    assert (Hrep1 : repr (tree t1) (B L (fidx f) R) (cpar c)).
    { apply repr_focus_height; auto. }
    assert (Hc1 : crepr (tree t1) c (Some (fidx f)) (1 + Z.max h (ht (fsib f)))).
    { eapply crepr_frame; [|exact Hc']. intros j Hj. apply nth_upd_ne. intros <-.
      apply NoDup_app_inv in Hnd1. destruct Hnd1 as (_ & _ & Hx). apply (Hx (fidx f)); auto.
      apply rt_in; reflexivity. }
    pose proof Hrep1 as Hrep1'. destruct Hrep1' as (m1 & Hm1 & Hm1l & Hm1r & Hm1p & Hm1h & Hm1L & Hm1R).
    rewrite (balance_factor_ok _ _ _ _ _ _ _ Hm1 Hm1l Hm1r Hm1L Hm1R). cbn [bind].
    assert (Hroot1 : root t1 = rootof c (Some (fidx f))) by exact Hroot.
    assert (Hunb : ~ (-1 <= ht L - ht R <= 1)%Z ->
      exists t' s',
        (let* t := (if ((-1 <=? ht L - ht R) && (ht L - ht R <=? 1))%Z then Ok t1
           else let* (node_b, prev_dir) := unwrap (Some (b, pd)) in
                let* nb := index (tree t1) node_b in
                let* node_c := unwrap (child_from_direction nb prev_dir) in
                perform_rotation t1 (fidx f) node_b node_c (fdir f) prev_dir) in
         let* next := parent_direction t (fidx f) in
         rebalance_loop fuel t next (Some (fidx f, fdir f))) = Ok t'
        /\ root t' = rt s' /\ repr (tree t') s' None /\ bal s' /\ ino s' = ino (plug (f :: c) s)
        /\ length (tree t') = length (tree t)).
    { intros Hub.
      replace ((-1 <=? ht L - ht R) && (ht L - ht R <=? 1))%Z with false by lia. cbn [bind unwrap].
      destruct (rotation_step f c t1 s b pd h m1) as
        (k & nb & t' & l' & i' & r' & g & Hk1 & Hk2 & Hk3 & Hk4 & Hk5 & Hk6 & Hk7 & Hk8 & Hk9 & Hk10 & Hk11); auto.
      { subst L R; destruct f; cbn [fsib fidx] in *; auto. }
      { subst L R; destruct f; cbn [fsib fidx] in *; auto. }
      { subst L R; destruct f; cbn [fsib fidx] in *; auto. }
      { rewrite Hdiff in Hub. lia. }
      rewrite (index_ok _ _ _ Hk1). cbn [bind]. rewrite Hk2. cbn [bind unwrap]. rewrite Hk3. cbn [bind].
      destruct (plug_repr (tree t') c (B l' i' r')) as [Hfull Hfullb]; auto.
      { rewrite Hk9. auto. }
      assert (Hndf : NoDup (ino (plug c (B l' i' r')))).
      { apply plug_nodup. rewrite Hk10. apply plug_nodup. exact Hnd. }
      exists t', (plug c (B l' i' r')). ssplit; auto.
      - eapply loop_after_rotation; eauto. cbn in Hf. lia.
      - rewrite rt_plug. auto.
      - cbn [plug]. rewrite !plug_ino, Hk10. reflexivity.
      - rewrite Hk7. apply upd_length. }
    destruct (Z_le_dec (-1) (ht L - ht R)) as [Hb1|Hb1]; [destruct (Z_le_dec (ht L - ht R) 1) as [Hb2|Hb2]|].
    + (* balanced *)
      replace ((-1 <=? ht L - ht R) && (ht L - ht R <=? 1))%Z with true by lia. cbn [bind].
      assert (HbLR : bal (B L (fidx f) R)).
      { cbn [bal]. ssplit; auto; try lia; subst L R; destruct f; cbn [fsib] in *; auto. }
      destruct (Z.eq_dec (ht (B L (fidx f) R)) (1 + Z.max h (ht (fsib f)))) as [Heq|Hneq].
      * (* same height: settled *)
        exists t1, (plug c (B L (fidx f) R)).
        destruct (plug_repr (tree t1) c (B L (fidx f) R)) as [Hfull Hfullb]; auto.
        { cbn [rt]. rewrite Heq. auto. }
        assert (Hndf : NoDup (ino (plug c (B L (fidx f) R)))) by (apply plug_nodup; auto).
        ssplit; auto.
        -- destruct c as [|g c].
           ++ rewrite (parent_direction_nil _ _ _ Hm1 Hm1p). cbn [bind]. destruct fuel; reflexivity.
           ++ rewrite (parent_direction_cons _ _ _ _ _ _ Hm1 Hm1p Hc1).
              ** cbn [bind]. cbn [plug] in Hfull, Hfullb, Hndf.
                 destruct g as [q x|x q]; cbn [plug1 fidx fdir] in *; eapply loop_settled; eauto; cbn in Hf; lia.
              ** apply NoDup_app_inv in Hnd1. destruct Hnd1 as (_ & _ & Hx). intros Hin.
                 apply (Hx (fidx f)); [apply rt_in; reflexivity|]. cbn. rewrite in_app_iff. auto.
        -- rewrite rt_plug. auto.
        -- cbn [plug]. rewrite Hplug1. auto.
        -- apply upd_length.
      * (* grown: continue *)
        destruct (IH fuel t1 (B L (fidx f) R) (fidx f) (fdir f) (1 + Z.max h (ht (fsib f)))%Z)
          as (t' & s' & H1 & H2 & H3 & H4 & H5 & H6); auto.
        -- cbn in Hf. lia.
        -- cbn [ht]. rewrite Hmax. cbn [ht] in Hneq. rewrite Hmax in Hneq. lia.
        -- cbn [ht] in Hneq. rewrite Hmax in Hneq.
           subst L R; destruct f; cbn [fdir lean fsib] in *; lia.
        -- apply plug_nodup; auto.
        -- exists t', s'. ssplit; auto.
           ++ cbn [plug]. rewrite Hplug1. auto.
           ++ rewrite H6. apply upd_length.
    + apply Hunb; auto; lia.
    + apply Hunb; auto; lia.
Qed.

(** ** No operation changes the stored elements *)

Definition datas (t : avl) : list T := map data (tree t).
Definition pres (t : avl) (r : M avl) : Prop := forall t', r = Ok t' -> datas t' = datas t.

Lemma modify_pres t i f : (forall n, data (f n) = data n) -> pres t (modify t i f).
Proof.
  intros Hf t' H. unfold modify in H. apply bind_ok in H. destruct H as (n & Hn & H). injection H as <-.
  unfold index in Hn. destruct (nth_error (tree t) i) eqn:Hi; [|discriminate]. injection Hn as ->.
  unfold datas. cbn. eapply map_upd; eauto.
Qed.

Lemma bind_pres {A} t (r : M A) k : (forall a, r = Ok a -> pres t (k a)) -> pres t (bind r k).
Proof. intros H t' H'. apply bind_ok in H'. destruct H' as (a & Ha & Hk). eapply H; eauto. Qed.

Lemma bind_pres2 t (r : M avl) k : pres t r -> (forall t1, r = Ok t1 -> pres t1 (k t1)) -> pres t (bind r k).
Proof.
  intros H1 H2 t' H'. apply bind_ok in H'. destruct H' as (t1 & Ha & Hk).
  rewrite <- (H1 _ Ha). eapply H2; eauto.
Qed.

Lemma ok_pres t : pres t (Ok t).
Proof. intros t' H. injection H as ->. reflexivity. Qed.

Lemma set_parent_ref_pres t i v : pres t (set_parent_ref t i v).
Proof.
  apply bind_pres. intros [|p|p] _; cbn [store_ref].
  - intros t' H. injection H as <-. reflexivity.
  - apply modify_pres. reflexivity.
  - apply modify_pres. reflexivity.
Qed.

Lemma update_node_height_pres t i : pres t (update_node_height t i).
Proof.
  unfold update_node_height. apply bind_pres; intros n _. apply bind_pres; intros hl _.
  apply bind_pres; intros hr _. apply modify_pres. reflexivity.
Qed.

Lemma set_left_child_pres t i c : pres t (set_left_child t i c).
Proof.
  unfold set_left_child. apply bind_pres2; [apply modify_pres; reflexivity|].
  intros t1 _. destruct c; [apply modify_pres; reflexivity | apply ok_pres].
Qed.
Lemma set_right_child_pres t i c : pres t (set_right_child t i c).
Proof.
  unfold set_right_child. apply bind_pres2; [apply modify_pres; reflexivity|].
  intros t1 _. destruct c; [apply modify_pres; reflexivity | apply ok_pres].
Qed.

Ltac pres_step :=
  lazymatch goal with
  | |- pres _ (bind (set_parent_ref _ _ _) _) => apply bind_pres2; [apply set_parent_ref_pres | intros ? _]
  | |- pres _ (bind (modify _ _ _) _) => apply bind_pres2; [apply modify_pres; reflexivity | intros ? _]
  | |- pres _ (bind (update_node_height _ _) _) => apply bind_pres2; [apply update_node_height_pres | intros ? _]
  | |- pres _ (bind (set_left_child _ _ _) _) => apply bind_pres2; [apply set_left_child_pres | intros ? _]
  | |- pres _ (bind (set_right_child _ _ _) _) => apply bind_pres2; [apply set_right_child_pres | intros ? _]
  | |- pres _ (update_node_height _ _) => apply update_node_height_pres
  | |- pres _ (bind _ _) => apply bind_pres; intros ? _
  end.

Lemma perform_rotation_pres t a b c d1 d2 : pres t (perform_rotation t a b c d1 d2).
Proof.
  destruct d1, d2; cbn [perform_rotation]; try (intros t' H; discriminate H).
  - unfold r_rotate. repeat pres_step.
  - unfold lr_rotate. repeat pres_step.
  - unfold rl_rotate. repeat pres_step.
  - unfold l_rotate. repeat pres_step.
Qed.

Lemma rebalance_loop_pres fuel : forall t cur prev, pres t (rebalance_loop fuel t cur prev).
Proof.
  induction fuel as [|fuel IH]; intros t [[i d]|] prev; cbn [rebalance_loop];
    try apply ok_pres; try (intros t' H; discriminate H).
  apply bind_pres2; [apply update_node_height_pres|]. intros t1 _.
  apply bind_pres; intros bf _. apply bind_pres2.
  - destruct (_ && _)%bool; [apply ok_pres|]. apply bind_pres. intros [nb pd] _.
    repeat pres_step. apply perform_rotation_pres.
  - intros t2 _. apply bind_pres; intros nx _. apply IH.
Qed.

(** ** Insertion *)

Variable cmp : T -> T -> comparison.
Hypothesis cmp_opp : forall x y, cmp y x = CompOpp (cmp x y).
Hypothesis cmp_trans : forall x y z, cmp x y = Lt -> cmp y z = Lt -> cmp x z = Lt.

(** Order of two backing indices. *)
Definition ltk (ds : list T) (i j : nat) : Prop :=
  exists x y, nth_error ds i = Some x /\ nth_error ds j = Some y /\ cmp x y = Lt.

Record AvlInv (t : avl) (s : tr) : Prop := {
  inv_root : root t = rt s;
  inv_repr : repr (tree t) s None;
  inv_bal : bal s;
  inv_perm : Permutation (ino s) (seq 0 (length (tree t)));
  inv_sort : StronglySorted (ltk (datas t)) (ino s)
}.

Lemma SSorted_app {A} (R : A -> A -> Prop) l1 l2 :
  StronglySorted R (l1 ++ l2) <-> StronglySorted R l1 /\ StronglySorted R l2 /\ (forall x y, In x l1 -> In y l2 -> R x y).
Proof.
  induction l1 as [|a l1 IH]; cbn.
  - split; [intros H; ssplit; auto; [constructor|tauto]|tauto].
  - split.
    + intros H. inversion H as [|? ? H1 H2]; subst. apply IH in H1. destruct H1 as (H3 & H4 & H5).
      rewrite Forall_forall in H2. ssplit; auto.
      * constructor; auto. apply Forall_forall. intros x Hx. apply H2. apply in_app_iff; auto.
      * intros x y [<-|Hx] Hy; auto. apply H2. apply in_app_iff; auto.
    + intros (H1 & H2 & H3). inversion H1 as [|? ? H4 H5]; subst. constructor.
      * apply IH. ssplit; auto.
      * rewrite Forall_forall in *. intros x Hx. apply in_app_iff in Hx. destruct Hx; auto.
Qed.

Definition below (ds : list T) (d : T) (l : list nat) := forall i, In i l -> exists x, nth_error ds i = Some x /\ cmp d x = Gt.
Definition above (ds : list T) (d : T) (l : list nat) := forall i, In i l -> exists x, nth_error ds i = Some x /\ cmp d x = Lt.

Lemma below_app ds d a b : below ds d (a ++ b) <-> below ds d a /\ below ds d b.
Proof.
  unfold below; split.
  - intros H; split; intros i Hi; apply H; apply in_app_iff; auto.
  - intros [H1 H2] i Hi. apply in_app_iff in Hi. destruct Hi; auto.
Qed.
Lemma above_app ds d a b : above ds d (a ++ b) <-> above ds d a /\ above ds d b.
Proof.
  unfold above; split.
  - intros H; split; intros i Hi; apply H; apply in_app_iff; auto.
  - intros [H1 H2] i Hi. apply in_app_iff in Hi. destruct Hi; auto.
Qed.

Lemma cmp_trans_gt x y z : cmp x y = Gt -> cmp y z = Gt -> cmp x z = Gt.
Proof.
  intros H1 H2.
  assert (Ha : cmp y x = Lt) by (rewrite cmp_opp, H1; reflexivity).
  assert (Hb : cmp z y = Lt) by (rewrite cmp_opp, H2; reflexivity).
  rewrite cmp_opp, (cmp_trans _ _ _ Hb Ha). reflexivity.
Qed.

Lemma nth_datas t i n : nth_error (tree t) i = Some n -> nth_error (datas t) i = Some (data n).
Proof. intros H. unfold datas. apply map_nth_error. auto. Qed.

Lemma insert_descend_spec t d free : forall s fuel c cur,
  length (ino s) < fuel -> rt s = Some cur ->
  repr (tree t) (plug c s) None -> bal (plug c s) -> NoDup (ino (plug c s)) ->
  StronglySorted (ltk (datas t)) (ino (plug c s)) ->
  below (datas t) d (cl c) -> above (datas t) d (cr c) ->
  (exists j x, In j (ino s) /\ nth_error (datas t) j = Some x /\ cmp d x = Eq
     /\ insert_descend cmp fuel t d free cur = Ok None)
  \/ (exists t1 f c', insert_descend cmp fuel t d free cur = Ok (Some (t1, fidx f))
     /\ plug (f :: c') E = plug c s /\ crepr (tree t1) (f :: c') (Some free) 0
     /\ root t1 = root t /\ length (tree t1) = length (tree t) /\ datas t1 = datas t
     /\ below (datas t) d (cl (f :: c')) /\ above (datas t) d (cr (f :: c'))).
Proof.
  induction s as [|l IHl i r IHr]; intros fuel c cur Hf Hcur Hr Hb Hnd Hsort Hlo Hhi; [discriminate|].
  injection Hcur as ->. destruct fuel as [|fuel]; [lia|].
  pose proof (unplug_repr _ _ _ Hr Hb) as (Hs & Hbs & Hc).
  pose proof Hs as Hs0. destruct Hs0 as (n & Hn & Hl & Hrr & Hp & Hh & Hrl & Hrr').
  pose proof (nth_datas _ _ _ Hn) as Hdn.
  assert (Hs1 : StronglySorted (ltk (datas t)) (ino l ++ cur :: ino r)).
  { rewrite plug_ino in Hsort. apply SSorted_app in Hsort. destruct Hsort as (_ & Hsort & _).
    apply SSorted_app in Hsort. tauto. }
  assert (Hleft : cmp d (data n) = Gt -> below (datas t) d (ino l ++ [cur])).
  { intros Hd. apply below_app. split.
    - intros j Hj. apply SSorted_app in Hs1. destruct Hs1 as (_ & _ & Hx).
      destruct (Hx j cur Hj) as (x & y & Hjx & Hcy & Hxy); [cbn; auto|].
      assert (y = data n) as -> by congruence.
      exists x. split; auto. eapply cmp_trans_gt; eauto. rewrite cmp_opp, Hxy. reflexivity.
    - intros j [<-|[]]. exists (data n). auto. }
  assert (Hright : cmp d (data n) = Lt -> above (datas t) d (cur :: ino r)).
  { intros Hd j [<-|Hj]; [exists (data n); auto|].
    apply SSorted_app in Hs1. destruct Hs1 as (_ & Hx & _). inversion Hx as [|? ? _ Hall]; subst.
    rewrite Forall_forall in Hall. destruct (Hall j Hj) as (x & y & Hx1 & Hy1 & Hxy).
    assert (x = data n) as -> by congruence. exists y. split; auto. eapply cmp_trans; eauto. }
  cbn [insert_descend]. rewrite (index_ok _ _ _ Hn). cbn [bind].
  cbn [ino] in Hf. rewrite app_length in Hf. cbn [length] in Hf.
  destruct (cmp d (data n)) eqn:Hd.
  - left. exists cur, (data n). ssplit; auto. apply in_app_iff; cbn; auto.
  - rewrite Hl. destruct l as [|ll li lr].
    + cbn [rt]. rewrite (modify_ok _ _ _ _ Hn). cbn [bind]. right.
      eexists _, (FL cur r), c. split; [reflexivity|]. cbn [tree root].
      apply plug_nodup in Hnd. apply NoDup_app_inv in Hnd. destruct Hnd as (Hnd1 & Hnd2 & Hnd3).
      cbn [ino app] in Hnd1. rewrite NoDup_cons_iff in Hnd1. cbn [bal ht] in Hbs. cbn [ht] in Hc, Hh.
      ssplit; auto.
      * exists (with_left (Some free) n). cbn [fidx fsib]. rewrite nth_upd_eq by (eapply nth_error_lt; eauto).
        cbn [left_node right_node with_left parent height ht]. ssplit; auto; try tauto; try lia.
        -- eapply repr_frame; [|exact Hrr']. intros j Hj. apply nth_upd_ne. intros ->; tauto.
        -- eapply crepr_frame; [|exact Hc]. intros j Hj. apply nth_upd_ne. intros <-.
           apply (Hnd3 cur); auto. apply rt_in; reflexivity.
      * apply upd_length.
      * unfold datas. cbn [tree]. eapply map_upd; eauto.
      * cbn [cr]. apply above_app. split; auto.
    + cbn [rt].
      destruct (IHl fuel (FL cur r :: c) li) as [H|H]; auto.
      * lia.
      * cbn [cr]. apply above_app; auto.
      * left. destruct H as (j & x & Hj & H). exists j, x. split; [|exact H]. apply in_app_iff; auto.
  - rewrite Hrr. destruct r as [|rl ri rr].
    + cbn [rt]. rewrite (modify_ok _ _ _ _ Hn). cbn [bind]. right.
      eexists _, (FR l cur), c. split; [reflexivity|]. cbn [tree root].
      apply plug_nodup in Hnd. apply NoDup_app_inv in Hnd. destruct Hnd as (Hnd1 & Hnd2 & Hnd3).
      cbn [ino] in Hnd1. apply NoDup_app_inv in Hnd1. destruct Hnd1 as (_ & _ & Hnd1).
      cbn [bal ht] in Hbs. cbn [ht] in Hc, Hh.
      ssplit; auto.
      * exists (with_right (Some free) n). cbn [fidx fsib]. rewrite nth_upd_eq by (eapply nth_error_lt; eauto).
        cbn [left_node right_node with_right parent height ht]. ssplit; auto; try tauto; try lia.
        -- eapply repr_frame; [|exact Hrl]. intros j Hj. apply nth_upd_ne. intros ->. apply (Hnd1 j); cbn; auto.
        -- eapply crepr_frame with (ns := tree t). intros j Hj. apply nth_upd_ne. intros <-.
           apply (Hnd3 cur); auto. apply rt_in; reflexivity.
           rewrite (Z.max_comm 0 (ht l)). auto.
      * apply upd_length.
      * unfold datas. cbn [tree]. eapply map_upd; eauto.
      * cbn [cl]. apply below_app. split; auto.
    + cbn [rt].
      destruct (IHr fuel (FR l cur :: c) ri) as [H|H]; auto.
      * lia.
      * cbn [cl]. apply below_app; auto.
      * left. destruct H as (j & x & Hj & H). exists j, x. split; [|exact H]. apply in_app_iff; cbn; auto.
Qed.

Lemma inv_nodup t s : AvlInv t s -> NoDup (ino s).
Proof.
  intros H. apply (Permutation_NoDup (l := seq 0 (length (tree t)))); [|apply seq_NoDup].
  symmetry. apply inv_perm; auto.
Qed.

Lemma inv_lt t s i : AvlInv t s -> In i (ino s) -> i < length (tree t).
Proof.
  intros H Hi. apply (Permutation_in _ (inv_perm _ _ H)) in Hi. apply in_seq in Hi. lia.
Qed.

Lemma crepr_app ns x c : forall hole h, crepr ns c hole h -> crepr (ns ++ [x]) c hole h.
Proof.
  assert (Hn : forall i (n : node), nth_error ns i = Some n -> nth_error (ns ++ [x]) i = Some n).
  { intros i n H. rewrite nth_error_app1; auto. eapply nth_error_lt; eauto. }
  assert (Hr : forall s p, repr ns s p -> repr (ns ++ [x]) s p).
  { induction s as [|l IHl i r IHr]; cbn; auto. intros p (n & H1 & H2 & H3 & H4 & H5 & H6 & H7).
    exists n. ssplit; auto. }
  induction c as [|f c IH]; intros hole h; cbn [crepr]; auto.
  intros (n & H1 & H2 & H3 & H4 & H5 & H6 & H7 & H8). exists n. ssplit; auto; lia.
Qed.

Lemma length_ino_inv t s : AvlInv t s -> length (ino s) = length (tree t).
Proof. intros H. rewrite (Permutation_length (inv_perm _ _ H)). apply seq_length. Qed.

Lemma celems_length c : length c <= length (celems c).
Proof. induction c as [|f c IH]; cbn; [lia|]. rewrite app_length. lia. Qed.

Lemma insert_spec t s d :
  AvlInv t s ->
  (exists j x, In j (ino s) /\ nth_error (datas t) j = Some x /\ cmp d x = Eq /\ insert cmp t d = Ok (t, false))
  \/ (exists t' s' L R, insert cmp t d = Ok (t', true) /\ AvlInv t' s'
      /\ datas t' = datas t ++ [d] /\ length (tree t') = S (length (tree t))
      /\ ino s = L ++ R /\ ino s' = L ++ [length (tree t)] ++ R
      /\ below (datas t) d L /\ above (datas t) d R).
Proof.
  intros Hinv. pose proof (inv_nodup _ _ Hinv) as Hnd. pose proof (length_ino_inv _ _ Hinv) as Hlen.
  destruct Hinv as [Hroot Hrepr Hbal Hperm Hsort].
  unfold insert. destruct s as [|l i r].
  - (* empty *)
    rewrite Hroot. cbn [rt]. cbn in Hlen. right.
    unfold allocate. cbn [tree root].
    assert (Ht : tree t = []) by (destruct (tree t); [auto|discriminate]).
    rewrite Ht. cbn.
    exists (mkAvl (Some 0) [node_new d None]), (B E 0 E), [], []. ssplit; auto.
    + constructor; cbn; auto.
      * exists (node_new d None). ssplit; auto.
      * ssplit; auto; lia.
      * repeat constructor.
    + unfold datas. rewrite Ht. reflexivity.
    + intros j [].
    + intros j [].
  - rewrite Hroot. cbn [rt].
    destruct (insert_descend_spec t d (length (tree t)) (B l i r) (S (length (tree t))) [] i)
      as [(j & x & Hj & Hx & Hcmp & Hres)|(t1 & f & c & Hres & Hplug & Hc & Hr1 & Hl1 & Hd1 & Hlo & Hhi)]; auto.
    + rewrite Hlen. lia.
    + intros k [].
    + intros k [].
    + left. exists j, x. rewrite Hres. cbn. ssplit; auto.
    + right. rewrite Hres. cbn [bind allocate]. unfold allocate. cbn [bind tree root].
      set (t2 := mkAvl (root t1) (tree t1 ++ [node_new d (Some (fidx f))])).
      rewrite app_length. cbn [length]. rewrite Nat.add_sub, Hl1, Nat.eqb_refl. cbn [rassert bind].
      set (N := length (tree t)) in *.
      assert (Hleaf : nth_error (tree t2) N = Some (node_new d (Some (fidx f)))).
      { cbn. rewrite nth_error_app2 by lia. rewrite Hl1, Nat.sub_diag. reflexivity. }
      unfold rebalance. rewrite Hleaf. cbn [node_new left_node right_node rassert bind].
      assert (Hcel : forall j, In j (celems (f :: c)) -> j < N).
      { intros j Hj. apply (Permutation_in _ (celems_perm _)) in Hj.
        assert (Hin : In j (ino (plug (f :: c) E))) by (rewrite plug_ino; cbn [ino app]; exact Hj).
        rewrite Hplug in Hin. cbn [plug] in Hin.
        apply (Permutation_in _ Hperm) in Hin. apply in_seq in Hin. unfold N. lia. }
      assert (Hnd2 : NoDup (ino (plug (f :: c) (B E N E)))).
      { apply plug_nodup. cbn [ino app]. constructor.
        - intros Hin. apply Hcel in Hin. lia.
        - assert (H : NoDup (ino (plug (f :: c) E))) by (rewrite Hplug; exact Hnd).
          apply plug_nodup in H. exact H. }
      assert (Hs2 : repr (tree t2) (B E N E) (Some (fidx f))).
      { exists (node_new d (Some (fidx f))). cbn. ssplit; auto. }
      assert (Hc2 : crepr (tree t2) (f :: c) (Some N) 0) by (apply crepr_app; exact Hc).
      assert (Hlc : length (f :: c) <= N).
      { transitivity (length (celems (f :: c))); [apply celems_length|].
        rewrite <- Hlen. change (B l i r) with (plug [] (B l i r)). rewrite <- Hplug, plug_ino. cbn [ino app].
        rewrite (Permutation_length (celems_perm _)). reflexivity. }
      destruct (2 * S (S N)) as [|F] eqn:HF; [lia|].
      assert (Hstep : rebalance_loop (S F) t2 (Some (N, DLeaf)) None =
                let* next := parent_direction t2 N in rebalance_loop F t2 next (Some (N, DLeaf))).
      { cbn [rebalance_loop].
        rewrite (update_node_height_same _ _ _ _ _ Hs2). cbn [bind].
        unfold balance_factor. rewrite (index_ok _ _ _ Hleaf). reflexivity. }
      destruct (loop_up (f :: c) F t2 (B E N E) N DLeaf 0) as (t' & s' & Ht' & Hr' & Hrep' & Hbal' & Hino' & Hlen'); auto.
      { lia. }
      { cbn [root t2 rt]. rewrite Hr1, Hroot. change (B l i r) with (plug [] (B l i r)).
        rewrite <- Hplug. rewrite rt_plug. reflexivity. }
      { cbn. lia. }
      { cbn. auto. }
      rewrite <- Hstep in Ht'.
      pose proof (rebalance_loop_pres _ _ _ _ _ Ht') as Hdat'.
      rewrite Ht'. cbn [bind].
      assert (Hdat2 : datas t2 = datas t ++ [d]).
      { unfold datas at 1. cbn [tree t2]. rewrite map_app. cbn. f_equal. exact Hd1. }
      rewrite plug_ino in Hino'. cbn [ino app] in Hino'.
      assert (HinoB : ino (B l i r) = cl (f :: c) ++ cr (f :: c)).
      { change (B l i r) with (plug [] (B l i r)). rewrite <- Hplug, plug_ino. reflexivity. }
      assert (Hlen'' : length (tree t') = S N).
      { rewrite Hlen'. cbn [tree t2]. rewrite app_length. cbn. unfold N. lia. }
      exists t', s', (cl (f :: c)), (cr (f :: c)). ssplit; auto.
      * constructor; auto.
        -- rewrite Hino', Hlen''. rewrite seq_S. cbn [plus].
           rewrite <- Permutation_middle. rewrite <- HinoB, Hperm. apply Permutation_cons_append.
        -- rewrite Hino', Hdat', Hdat2.
           assert (Hmono : forall a b, ltk (datas t) a b -> ltk (datas t ++ [d]) a b).
           { intros a b (x & y & Hx & Hy & Hxy). exists x, y. ssplit; auto;
               rewrite nth_error_app1; auto; eapply nth_error_lt; eauto. }
           assert (HmonoS : forall z, StronglySorted (ltk (datas t)) z -> StronglySorted (ltk (datas t ++ [d])) z).
           { induction 1 as [|a z Hz IHz Hall]; constructor; auto.
             eapply Forall_impl; [|exact Hall]. auto. }
           assert (HdN : nth_error (datas t ++ [d]) N = Some d).
           { assert (HlN : length (datas t) = N) by (unfold datas; apply map_length).
             rewrite nth_error_app2 by lia. rewrite HlN, Nat.sub_diag. reflexivity. }
           rewrite HinoB in Hsort. apply HmonoS in Hsort. apply SSorted_app in Hsort.
           destruct Hsort as (Hs_1 & Hs_2 & Hs_3).
           assert (Hup : forall j x, nth_error (datas t) j = Some x -> nth_error (datas t ++ [d]) j = Some x).
           { intros j x Hx. rewrite nth_error_app1; auto. eapply nth_error_lt; eauto. }
           apply SSorted_app. ssplit; auto.
           ++ constructor; auto. apply Forall_forall. intros j Hj. destruct (Hhi j Hj) as (x & Hx & Hxd).
              exists d, x. ssplit; auto.
           ++ intros a b Ha [<-|Hbb]; auto.
              destruct (Hlo a Ha) as (x & Hx & Hxd). exists x, d. ssplit; auto.
              rewrite cmp_opp, Hxd. reflexivity.
      * congruence.
Qed.

Lemma AvlInv_default : AvlInv avl_default E.
Proof. constructor; cbn; auto; constructor. Qed.

End P.
