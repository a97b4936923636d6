(** AVL: preorder iteration and the preorder reordering of the backing vector. *)
From Verif Require Import M_Base M_Avl P_Base P_Avl P_AvlIns S_Avl.
From Coq Require Import ZifyBool ZifyNat ZifyN Permutation Sorted Arith.

(** ** Preorder facts on index trees *)

Definition before {A} (x y : A) (l : list A) : Prop := exists l1 l2 l3, l = l1 ++ x :: l2 ++ y :: l3.

Lemma before_app {A} (x y : A) l a b : before x y l -> before x y (a ++ l ++ b).
Proof.
  intros (l1 & l2 & l3 & ->). exists (a ++ l1), l2, (l3 ++ b).
  rewrite <- !app_assoc. cbn. rewrite <- app_assoc. reflexivity.
Qed.

Lemma before_antisym {A} (x y : A) l : NoDup l -> before x y l -> before y x l -> False.
Proof.
  intros Hnd (l1 & l2 & l3 & H1) (k1 & k2 & k3 & H2).
  revert l1 k1 H1 H2. induction l as [|z l IH]; intros l1 k1 H1 H2.
  - destruct l1; discriminate.
  - inversion Hnd as [|? ? Hz Hnd']; subst.
    destruct l1 as [|u l1], k1 as [|v k1]; cbn in H1, H2.
    + injection H1 as -> H1. injection H2 as -> H2. apply Hz. rewrite H1. apply in_app_iff; cbn; auto.
    + injection H1 as -> H1. injection H2 as -> H2. apply Hz. rewrite H2.
      apply in_app_iff; right; right. apply in_app_iff; cbn; auto.
    + injection H1 as -> H1. injection H2 as -> H2. apply Hz. rewrite H1.
      apply in_app_iff; right; right. apply in_app_iff; cbn; auto.
    + injection H1 as -> H1. injection H2 as _ H2. eapply IH; eauto.
Qed.

Lemma pre_plug c : exists A B, forall s, pre (plug c s) = A ++ pre s ++ B.
Proof.
  induction c as [|f c (A & B & IH)]; cbn [plug].
  - exists [], []. intros s. rewrite app_nil_r. reflexivity.
  - destruct f as [i r|l i].
    + exists (A ++ [i]), (pre r ++ B). intros s. rewrite IH. cbn [plug1 pre].
      rewrite <- !app_assoc. cbn. rewrite <- app_assoc. reflexivity.
    + exists (A ++ i :: pre l), B. intros s. rewrite IH. cbn [plug1 pre].
      rewrite <- !app_assoc. cbn. rewrite <- app_assoc. reflexivity.
Qed.

Lemma pre_perm s : Permutation (pre s) (ino s).
Proof.
  induction s as [|l IHl i r IHr]; cbn; auto.
  rewrite IHl, IHr. apply Permutation_middle.
Qed.

Lemma focus s i : In i (ino s) -> exists c l r, s = plug c (B l i r).
Proof.
  assert (H : forall s c, In i (ino s) -> exists c' l r, plug c s = plug c' (B l i r)).
  { induction s0 as [|l IHl j r IHr]; cbn [ino]; intros c; [intros []|].
    intros Hi. apply in_app_iff in Hi. cbn in Hi. destruct Hi as [Hi|[->|Hi]].
    - apply (IHl (FL j r :: c) Hi).
    - eauto.
    - apply (IHr (FR l j :: c) Hi). }
  intros Hi. apply (H s [] Hi).
Qed.

Lemma pre_root s c d : rt s = Some c -> In d (ino s) -> d <> c -> before c d (pre s).
Proof.
  intros Hrt Hd Hne. destruct s as [|l i r]; [discriminate|]. injection Hrt as ->.
  rewrite <- (pre_perm (B l c r)) in Hd. cbn [pre] in *. destruct Hd as [Hd|Hd]; [congruence|].
  apply in_split in Hd. destruct Hd as (u & v & ->). exists [], u, v. reflexivity.
Qed.

Fixpoint relabel (f : nat -> nat) (s : tr) : tr :=
  match s with E => E | B l i r => B (relabel f l) (f i) (relabel f r) end.

Lemma relabel_ht f s : ht (relabel f s) = ht s.
Proof. induction s as [|l IHl i r IHr]; cbn; congruence. Qed.
Lemma relabel_bal f s : bal s -> bal (relabel f s).
Proof. induction s as [|l IHl i r IHr]; cbn; auto. rewrite !relabel_ht. tauto. Qed.
Lemma relabel_ino f s : ino (relabel f s) = map f (ino s).
Proof. induction s as [|l IHl i r IHr]; cbn; auto. rewrite map_app, IHl, IHr. reflexivity. Qed.
Lemma relabel_pre f s : pre (relabel f s) = map f (pre s).
Proof. induction s as [|l IHl i r IHr]; cbn; auto. rewrite map_app, IHl, IHr. reflexivity. Qed.
Lemma relabel_rt f s : rt (relabel f s) = option_map f (rt s).
Proof. destruct s; reflexivity. Qed.

Definition sw (a b j : nat) : nat := if Nat.eqb j a then b else if Nat.eqb j b then a else j.

Lemma sw_invol a b j : sw a b (sw a b j) = j.
Proof.
  unfold sw. destruct (Nat.eqb_spec j a) as [->|Ha].
  - rewrite Nat.eqb_refl. destruct (Nat.eqb_spec b a); congruence.
  - destruct (Nat.eqb_spec j b) as [->|Hb]; [rewrite Nat.eqb_refl; reflexivity|].
    destruct (Nat.eqb_spec j a), (Nat.eqb_spec j b); congruence.
Qed.
Lemma sw_a a b : sw a b a = b.
Proof. unfold sw. rewrite Nat.eqb_refl. reflexivity. Qed.
Lemma sw_b a b : sw a b b = a.
Proof. unfold sw. rewrite Nat.eqb_refl. destruct (Nat.eqb_spec b a); auto. Qed.
Lemma sw_ne a b j : j <> a -> j <> b -> sw a b j = j.
Proof. unfold sw. intros. destruct (Nat.eqb_spec j a), (Nat.eqb_spec j b); congruence. Qed.

Section P.
Context {T : Type}.
Notation node := (node T).
Notation avl := (avl T).
Implicit Types (ns : list node) (t : avl).

(** ** Preorder iteration *)

Lemma preorder_loop_spec t : forall fuel (ss : list tr),
  Forall (fun s => exists p, repr (tree t) s p) ss ->
  length (concat (map pre ss)) <= fuel ->
  preorder_loop fuel t (concat (map (fun s => match rt s with Some i => [i] | None => [] end) ss))
    = Ok (concat (map pre ss)).
Proof.
  intros fuel ss. remember (length ss + fuel + length (concat (map pre ss))) as m eqn:Hm.
  revert fuel ss Hm. induction m as [m IH] using lt_wf_ind; intros fuel ss Hm Hall Hlen.
  destruct ss as [|s ss]; cbn.
  - destruct fuel; reflexivity.
  - inversion Hall as [|? ? (p & Hs) Hss]; subst.
    destruct s as [|l i r]; cbn.
    + eapply IH; [|reflexivity|auto|auto]. cbn. lia.
    + cbn in Hlen. destruct fuel as [|fuel]; [lia|]. cbn [preorder_loop].
      pose proof Hs as Hs0. destruct Hs0 as (n & Hn & Hl & Hr & Hp & Hh & Hrl & Hrr).
      rewrite (index_ok _ _ _ Hn). cbn [bind].
      replace (push_opt (left_node n) (push_opt (right_node n) (concat (map (fun s => match rt s with Some i => [i] | None => [] end) ss))))
        with (concat (map (fun s => match rt s with Some i => [i] | None => [] end) (l :: r :: ss))).
      2:{ rewrite Hl, Hr. cbn. destruct (rt l), (rt r); reflexivity. }
      rewrite (IH (length (l :: r :: ss) + fuel + length (concat (map pre (l :: r :: ss))))) with (fuel := fuel).
      * cbn. rewrite <- app_assoc. reflexivity.
      * cbn. rewrite !app_length. lia.
      * reflexivity.
      * constructor; eauto.
      * cbn. rewrite !app_length in *. lia.
Qed.

Lemma preorder_indices_spec t s :
  root t = rt s -> repr (tree t) s None -> length (ino s) = length (tree t) ->
  preorder_indices t = Ok (pre s).
Proof.
  intros Hr Hs Hl. unfold preorder_indices.
  pose proof (preorder_loop_spec t (length (tree t)) [s]) as H. cbn in H. rewrite !app_nil_r in H.
  replace (push_opt (root t) []) with (match rt s with Some i => [i] | None => [] end)
    by (rewrite Hr; destruct (rt s); reflexivity).
  apply H.
  - constructor; eauto.
  - rewrite <- Hl, (Permutation_length (pre_perm s)). lia.
Qed.

(** ** Link facts *)

Section Links.
Variables (ns : list node) (s : tr).
Hypothesis Hrepr : repr ns s None.
Hypothesis Hbal : bal s.
Hypothesis Hnd : NoDup (ino s).

Let at_ (i : nat) (n : node) := In i (ino s) /\ nth_error ns i = Some n.

Lemma focus_at i n : at_ i n -> exists c l r, s = plug c (B l i r) /\ left_node n = rt l /\ right_node n = rt r
  /\ parent n = cpar c /\ repr ns l (Some i) /\ repr ns r (Some i) /\ crepr ns c (Some i) (ht (B l i r)).
Proof.
  intros (Hi & Hn). destruct (focus _ _ Hi) as (c & l & r & ->).
  destruct (unplug_repr _ _ _ Hrepr Hbal) as (Hs & _ & Hc).
  destruct Hs as (n' & Hn' & Hl & Hr & Hp & Hh & Hrl & Hrr).
  assert (n' = n) as -> by congruence. exists c, l, r. ssplit; auto.
Qed.

Lemma link_child i n c nc : at_ i n -> at_ c nc -> left_node n = Some c \/ right_node n = Some c -> parent nc = Some i.
Proof.
  intros Hi (_ & Hc) H. destruct (focus_at _ _ Hi) as (k & l & r & _ & Hl & Hr & _ & Hrl & Hrr & _).
  assert (Hsub : forall x, repr ns x (Some i) -> rt x = Some c -> parent nc = Some i).
  { intros [|x1 x2 x3] Hx Hrt; [discriminate|]. injection Hrt as ->. destruct Hx as (n' & Hn' & _ & _ & Hp & _). congruence. }
  destruct H as [H|H]; [apply (Hsub l)|apply (Hsub r)]; auto; congruence.
Qed.

Lemma link_child_in i n c : at_ i n -> left_node n = Some c \/ right_node n = Some c -> In c (ino s).
Proof.
  intros Hi H. destruct (focus_at _ _ Hi) as (k & l & r & -> & Hl & Hr & _).
  rewrite plug_ino. apply in_app_iff; right. apply in_app_iff; left. cbn. apply in_app_iff.
  destruct H as [H|H]; [left | right; right]; apply rt_in; congruence.
Qed.

Lemma link_parent c nc i : at_ c nc -> parent nc = Some i ->
  exists n, at_ i n /\ (left_node n = Some c \/ right_node n = Some c).
Proof.
  intros Hc Hp. destruct (focus_at _ _ Hc) as (k & l & r & -> & _ & _ & Hk & _ & _ & Hck).
  rewrite Hp in Hk. destruct k as [|f k]; [discriminate|]. injection Hk as ->.
  destruct Hck as (n & Hn & Hlr & _). exists n. split.
  - split; auto. rewrite plug_ino. apply in_app_iff.
    destruct f as [fi fr|fl fi]; cbn; rewrite ?in_app_iff; cbn; rewrite ?in_app_iff; cbn; tauto.
  - destruct f; tauto.
Qed.

Lemma link_lr i n c : at_ i n -> left_node n = Some c -> right_node n = Some c -> False.
Proof.
  intros Hi H1 H2. destruct (focus_at _ _ Hi) as (k & l & r & E & Hl & Hr & _).
  rewrite E in Hnd. apply plug_nodup in Hnd. apply NoDup_app_inv in Hnd. destruct Hnd as (Hx & _ & _).
  cbn in Hx. apply NoDup_app_inv in Hx. destruct Hx as (_ & _ & Hx).
  apply (Hx c); [|right]; apply rt_in; congruence.
Qed.

Lemma link_root c nc : at_ c nc -> (parent nc = None <-> rt s = Some c).
Proof.
  intros Hc. destruct (focus_at _ _ Hc) as (k & l & r & E & _ & _ & Hk & _). split.
  - rewrite Hk. destruct k; [|discriminate]. rewrite E. reflexivity.
  - intros Hrt. destruct k as [|f k]; [rewrite Hk; reflexivity|].
    exfalso. rewrite E in Hnd. apply plug_nodup in Hnd. apply NoDup_app_inv in Hnd. destruct Hnd as (_ & _ & Hx).
    apply (Hx c); [apply rt_in; reflexivity|].
    rewrite E, rt_plug in Hrt. cbn in Hrt.
    assert (Hro : forall k j, rootof k (Some j) = Some c -> j = c \/ In c (celems k)).
    { clear. induction k as [|f k IH]; cbn; intros j H; [left; congruence|].
      destruct (IH _ H) as [->|H']; auto. right; right. apply in_app_iff; auto. }
    apply Hro in Hrt. cbn. rewrite in_app_iff. tauto.
Qed.

Lemma pre_parent i n c : at_ i n -> left_node n = Some c \/ right_node n = Some c -> before i c (pre s).
Proof.
  intros Hi H. destruct (focus_at _ _ Hi) as (k & l & r & -> & Hl & Hr & _).
  destruct (pre_plug k) as (A & B & ->). apply before_app. cbn.
  destruct H as [H|H].
  - rewrite Hl in H. destruct l as [|x y z]; [discriminate|]. injection H as ->.
    exists [], []. cbn. eauto.
  - rewrite Hr in H. destruct r as [|x y z]; [discriminate|]. injection H as ->.
    exists [], (pre l). cbn. eauto.
Qed.

Lemma pre_siblings i n c d : at_ i n -> left_node n = Some c -> right_node n = Some d -> before c d (pre s).
Proof.
  intros Hi H1 H2. destruct (focus_at _ _ Hi) as (k & l & r & -> & Hl & Hr & _).
  destruct (pre_plug k) as (A & B & ->). apply before_app. cbn.
  rewrite Hl in H1. destruct l as [|x y z]; [discriminate|]. injection H1 as ->.
  rewrite Hr in H2. destruct r as [|x' y' z']; [discriminate|]. injection H2 as ->.
  exists [i], (pre x ++ pre z), (pre x' ++ pre z'). cbn. rewrite <- !app_assoc. reflexivity.
Qed.

End Links.

(** ** One swap *)

Definition relink (f : nat -> nat) (n : node) : node :=
  mkNode (option_map f (left_node n)) (option_map f (right_node n)) (option_map f (parent n)) (height n) (data n).

Lemma repr_relabel f ns ns' : forall s p,
  repr ns s p ->
  (forall j n, In j (ino s) -> nth_error ns j = Some n -> nth_error ns' (f j) = Some (relink f n)) ->
  repr ns' (relabel f s) (option_map f p).
Proof.
  induction s as [|l IHl i r IHr]; intros p Hs H; [exact I|].
  destruct Hs as (n & Hn & Hl & Hr & Hp & Hh & Hrl & Hrr).
  exists (relink f n). cbn [relink left_node right_node parent height].
  rewrite !relabel_rt, Hl, Hr, Hp, Hh. ssplit; auto.
  - apply H; auto. cbn. apply in_app_iff; cbn; auto.
  - cbn [ht]. rewrite !relabel_ht. reflexivity.
  - apply IHl with (p := Some i); auto. intros j m Hj. apply H. cbn. apply in_app_iff; auto.
  - apply IHr with (p := Some i); auto. intros j m Hj. apply H. cbn. apply in_app_iff; cbn; auto.
Qed.


Definition rechild (f : nat -> nat) (n : node) : node :=
  mkNode (option_map f (left_node n)) (option_map f (right_node n)) (parent n) (height n) (data n).

Lemma set_parent_ref_some t i n p np v :
  nth_error (tree t) i = Some n -> parent n = Some p -> nth_error (tree t) p = Some np ->
  left_node np = Some i \/ right_node np = Some i ->
  set_parent_ref t i v = Ok (mkAvl (root t) (upd (tree t) p
     (if opt_is (left_node np) i then with_left v np else with_right v np))).
Proof.
  intros Hn Hp Hnp H. unfold set_parent_ref, parent_node_ref, parent_direction.
  rewrite (index_ok _ _ _ Hn). cbn [bind]. rewrite Hp. rewrite (index_ok _ _ _ Hnp). cbn [bind].
  destruct (opt_is (left_node np) i) eqn:Hl; cbn [bind store_ref].
  - apply modify_ok; auto.
  - destruct H as [H|H]; [rewrite H, opt_is_refl in Hl; discriminate|].
    rewrite H, opt_is_refl. cbn [bind store_ref]. apply modify_ok; auto.
Qed.

Lemma set_parent_ref_none t i n v :
  nth_error (tree t) i = Some n -> parent n = None ->
  set_parent_ref t i v = Ok (mkAvl v (tree t)).
Proof.
  intros Hn Hp. unfold set_parent_ref, parent_node_ref, parent_direction.
  rewrite (index_ok _ _ _ Hn). cbn [bind]. rewrite Hp. reflexivity.
Qed.

Lemma reparent_spec t o p :
  (forall i, o = Some i -> exists n, nth_error (tree t) i = Some n) ->
  exists t', reparent t o p = Ok t' /\ root t' = root t /\ length (tree t') = length (tree t)
   /\ forall j n, nth_error (tree t) j = Some n ->
        nth_error (tree t') j = Some (if opt_is o j then with_parent (Some p) n else n).
Proof.
  intros H. destruct o as [i|]; cbn [reparent].
  - destruct (H i eq_refl) as (n & Hn). rewrite (modify_ok _ _ _ _ Hn). eexists. split; [reflexivity|].
    cbn [root tree]. ssplit; auto. { apply upd_length. }
    intros j m Hj. cbn [opt_is]. destruct (Nat.eqb_spec i j) as [<-|Hne].
    + rewrite nth_upd_eq by (eapply nth_error_lt; eauto). congruence.
    + rewrite nth_upd_ne; auto.
  - exists t. ssplit; auto.
Qed.

Lemma option_map_sw_ne a b (o : option nat) : o <> Some a -> o <> Some b -> option_map (sw a b) o = o.
Proof. destruct o as [j|]; cbn; auto. intros. rewrite sw_ne; congruence. Qed.

Lemma swap_spec t s a b :
  root t = rt s -> repr (tree t) s None -> bal s -> Permutation (ino s) (seq 0 (length (tree t))) ->
  before b a (pre s) ->
  exists t', swap_backing_elements t a b = Ok t'
    /\ root t' = rt (relabel (sw a b) s) /\ length (tree t') = length (tree t)
    /\ forall j n, nth_error (tree t) j = Some n -> nth_error (tree t') (sw a b j) = Some (relink (sw a b) n).
Proof.
  intros Hroot Hrepr Hbal Hperm Hbef.
  assert (Hnd : NoDup (ino s)).
  { apply (Permutation_NoDup (l := seq 0 (length (tree t)))); [|apply seq_NoDup]. symmetry; auto. }
  assert (Hndp : NoDup (pre s)).
  { eapply Permutation_NoDup; [symmetry; apply pre_perm|auto]. }
  assert (Hin : forall j n, nth_error (tree t) j = Some n -> In j (ino s)).
  { intros j n Hj. apply (Permutation_in _ (Permutation_sym Hperm)). apply in_seq.
    apply nth_error_lt in Hj. lia. }
  assert (Hat : forall j n, nth_error (tree t) j = Some n -> In j (ino s) /\ nth_error (tree t) j = Some n) by eauto.
  assert (Hab : a <> b) by (intros ->; eapply before_antisym; eauto).
  assert (Hina : In a (ino s) /\ In b (ino s)).
  { destruct Hbef as (l1 & l2 & l3 & Hx). split; apply (Permutation_in _ (pre_perm s)); rewrite Hx.
    - apply in_app_iff; right; right. apply in_app_iff; cbn; auto.
    - apply in_app_iff; cbn; auto. }
  destruct Hina as (Hina & Hinb).
  destruct (repr_in _ _ _ _ Hrepr Hina) as (na & Hna). destruct (repr_in _ _ _ _ Hrepr Hinb) as (nb & Hnb).
  assert (Hra : rt s <> Some a).
  { intros Hra. eapply before_antisym; [exact Hndp|exact Hbef|]. apply pre_root; auto. }
  destruct (parent na) as [q|] eqn:Hpa.
  2:{ exfalso. apply Hra. apply (link_root _ _ Hrepr Hbal Hnd a na); auto. }
  destruct (link_parent _ _ Hrepr Hbal Hnd _ _ _ (Hat _ _ Hna) Hpa) as (nq & (Hinq & Hnq) & Hqa).
  set (F := sw a b).
  set (t1 := match root t with
             | Some r => if Nat.eqb r a then mkAvl (Some b) (tree t)
                         else if Nat.eqb r b then mkAvl (Some a) (tree t)
                         else t
             | None => t
             end).
  assert (Ht1 : tree t1 = tree t).
  { unfold t1. destruct (root t) as [r|]; auto. destruct (Nat.eqb r a), (Nat.eqb r b); reflexivity. }
  assert (Hr1 : root t1 = option_map F (rt s)).
  { unfold t1. rewrite Hroot. destruct (rt s) as [r|] eqn:Hrt; cbn [option_map]; [|congruence].
    unfold F, sw. destruct (Nat.eqb_spec r a); [reflexivity|]. destruct (Nat.eqb_spec r b); [reflexivity|congruence]. }
  (* unique holders of links *)
  assert (Hhold : forall j n x nx, nth_error (tree t) j = Some n -> nth_error (tree t) x = Some nx ->
            left_node n = Some x \/ right_node n = Some x -> parent nx = Some j).
  { intros j n x nx Hj Hx H. eapply link_child; eauto. }
  set (nq' := if opt_is (left_node nq) a then with_left (Some b) nq else with_right (Some b) nq).
  set (t2 := mkAvl (root t1) (upd (tree t) q nq')).
  assert (E2 : set_parent_ref t1 a (Some b) = Ok t2).
  { unfold t2. rewrite <- Ht1 in Hna, Hnq |- *. rewrite (set_parent_ref_some _ _ _ _ _ _ Hna Hpa Hnq Hqa). reflexivity. }
  assert (Hlq : q < length (tree t)) by (eapply nth_error_lt; eauto).
  assert (Hn2 : forall j n, nth_error (tree t) j = Some n -> nth_error (tree t2) j = Some (if Nat.eqb j q then nq' else n)).
  { intros j n Hj. cbn [tree t2]. destruct (Nat.eqb_spec j q) as [->|Hne].
    - apply nth_upd_eq; auto.
    - rewrite nth_upd_ne; auto. }
  assert (Hq'p : parent nq' = parent nq) by (unfold nq'; destruct (opt_is _ _); reflexivity).
  assert (E3 : exists t3, set_parent_ref t2 b (Some a) = Ok t3 /\ root t3 = option_map F (rt s)
     /\ length (tree t3) = length (tree t)
     /\ forall j n, nth_error (tree t) j = Some n -> nth_error (tree t3) j = Some (rechild F n)).
  { assert (Hnb2 : exists nb2, nth_error (tree t2) b = Some nb2 /\ parent nb2 = parent nb).
    { exists (if Nat.eqb b q then nq' else nb). split; [auto|].
      destruct (Nat.eqb_spec b q) as [->|]; auto. congruence. }
    destruct Hnb2 as (nb2 & Hnb2 & Hpb2).
    assert (Hother : forall j n, nth_error (tree t) j = Some n -> j <> q -> left_node n <> Some a /\ right_node n <> Some a).
    { intros j n Hj Hne. split; intros Hc; apply Hne;
        assert (Hx : parent na = Some j) by (eapply Hhold; eauto); congruence. }
    assert (Hlr : forall j n x, nth_error (tree t) j = Some n -> left_node n = Some x -> right_node n = Some x -> False).
    { intros j n x Hj. eapply (link_lr _ _ Hrepr Hbal Hnd); eauto. }
    destruct (parent nb) as [r|] eqn:Hpb.
    - destruct (link_parent _ _ Hrepr Hbal Hnd _ _ _ (Hat _ _ Hnb) Hpb) as (nr & (Hinr & Hnr) & Hrb).
      assert (Hotherb : forall j n, nth_error (tree t) j = Some n -> j <> r -> left_node n <> Some b /\ right_node n <> Some b).
      { intros j n Hj Hne. split; intros Hc; apply Hne;
        assert (Hx : parent nb = Some j) by (eapply Hhold; eauto); congruence. }
      destruct (Nat.eq_dec r q) as [->|Hrq].
      + assert (nr = nq) as -> by congruence.
        assert (Hl : left_node nq = Some b /\ right_node nq = Some a).
        { destruct Hqa as [Hqa|Hqa], Hrb as [Hrb|Hrb]; try congruence; auto.
          exfalso. eapply before_antisym; [exact Hndp|exact Hbef|].
          eapply pre_siblings; eauto. }
        destruct Hl as (Hl & Hr).
        assert (Hnq' : nq' = with_right (Some b) nq).
        { unfold nq'. rewrite Hl. rewrite opt_is_false by congruence. reflexivity. }
        assert (Hq2 : nth_error (tree t2) q = Some nq').
        { rewrite (Hn2 _ _ Hnq), Nat.eqb_refl. reflexivity. }
        rewrite (set_parent_ref_some _ _ _ _ _ (Some a) Hnb2 Hpb2 Hq2).
        2:{ rewrite Hnq'. cbn. auto. }
        eexists. split; [reflexivity|]. cbn [root tree t2]. ssplit; auto.
        { rewrite !upd_length. reflexivity. }
        intros j n Hj. destruct (Nat.eq_dec j q) as [->|Hne].
        * rewrite nth_upd_eq by (rewrite upd_length; auto).
          assert (n = nq) as -> by congruence.
          rewrite Hnq'. cbn [with_right left_node]. rewrite Hl, opt_is_refl.
          unfold rechild, F. rewrite Hl, Hr. cbn [option_map]. rewrite sw_a, sw_b. reflexivity.
        * rewrite !nth_upd_ne by auto. rewrite Hj. f_equal. unfold rechild, F.
          destruct (Hother _ _ Hj Hne). destruct (Hotherb _ _ Hj Hne).
          rewrite !option_map_sw_ne by auto. destruct n; reflexivity.
      + assert (Hr2 : nth_error (tree t2) r = Some nr).
        { rewrite (Hn2 _ _ Hnr). destruct (Nat.eqb_spec r q); congruence. }
        rewrite (set_parent_ref_some _ _ _ _ _ (Some a) Hnb2 Hpb2 Hr2 Hrb).
        eexists. split; [reflexivity|]. cbn [root tree t2]. ssplit; auto.
        { rewrite !upd_length. reflexivity. }
        intros j n Hj. destruct (Nat.eq_dec j r) as [->|Hne].
        * rewrite nth_upd_eq by (rewrite upd_length; eapply nth_error_lt; eauto).
          assert (n = nr) as -> by congruence. f_equal.
          destruct (Hother _ _ Hnr Hrq) as (H1 & H2).
          unfold rechild, F. destruct (opt_is (left_node nr) b) eqn:Hob.
          -- apply opt_is_true in Hob. rewrite Hob. cbn [option_map]. rewrite sw_b.
             rewrite option_map_sw_ne; auto. intros Hc. eapply Hlr; eauto.
          -- destruct Hrb as [Hrb|Hrb]; [rewrite Hrb, opt_is_refl in Hob; discriminate|].
             rewrite Hrb. cbn [option_map]. rewrite sw_b. rewrite option_map_sw_ne; auto.
             intros Hc. eapply Hlr; eauto.
        * rewrite nth_upd_ne by auto. rewrite (Hn2 _ _ Hj) || (cbn [tree t2] in Hn2; rewrite (Hn2 _ _ Hj)).
          destruct (Hotherb _ _ Hj Hne) as (H1 & H2).
          destruct (Nat.eqb_spec j q) as [->|Hneq]; f_equal.
          -- assert (n = nq) as -> by congruence. unfold nq', rechild, F.
             destruct (opt_is (left_node nq) a) eqn:Hob.
             ++ apply opt_is_true in Hob. rewrite Hob. cbn [option_map]. rewrite sw_a.
                rewrite option_map_sw_ne; auto. intros Hc. eapply Hlr; eauto.
             ++ destruct Hqa as [Hqa|Hqa]; [rewrite Hqa, opt_is_refl in Hob; discriminate|].
                rewrite Hqa. cbn [option_map]. rewrite sw_a. rewrite option_map_sw_ne; auto.
                intros Hc. eapply Hlr; eauto.
          -- destruct (Hother _ _ Hj Hneq). unfold rechild, F. rewrite !option_map_sw_ne by auto. destruct n; reflexivity.
    - assert (Hrb : rt s = Some b) by (apply (link_root _ _ Hrepr Hbal Hnd b nb); auto).
      assert (Hotherb : forall j n, nth_error (tree t) j = Some n -> left_node n <> Some b /\ right_node n <> Some b).
      { intros j n Hj. split; intros Hc;
        assert (Hx : parent nb = Some j) by (eapply Hhold; eauto); congruence. }
      rewrite (set_parent_ref_none _ _ _ (Some a) Hnb2 Hpb2).
      eexists. split; [reflexivity|]. cbn [root tree t2]. ssplit; auto.
      { rewrite Hrb. cbn. unfold F. rewrite sw_b. reflexivity. }
      { apply upd_length. }
      intros j n Hj. cbn [tree t2] in Hn2. rewrite (Hn2 _ _ Hj).
      destruct (Hotherb _ _ Hj) as (H1 & H2).
      destruct (Nat.eqb_spec j q) as [->|Hneq]; f_equal.
      -- assert (n = nq) as -> by congruence. unfold nq', rechild, F.
         destruct (opt_is (left_node nq) a) eqn:Hob.
         ++ apply opt_is_true in Hob. rewrite Hob. cbn [option_map]. rewrite sw_a.
            rewrite option_map_sw_ne; auto. intros Hc. eapply Hlr; eauto.
         ++ destruct Hqa as [Hqa|Hqa]; [rewrite Hqa, opt_is_refl in Hob; discriminate|].
            rewrite Hqa. cbn [option_map]. rewrite sw_a. rewrite option_map_sw_ne; auto.
            intros Hc. eapply Hlr; eauto.
      -- destruct (Hother _ _ Hj Hneq). unfold rechild, F. rewrite !option_map_sw_ne by auto. destruct n; reflexivity. }
  destruct E3 as (t3 & E3 & Hr3 & Hl3 & Hn3).
  unfold swap_backing_elements. destruct (Nat.eqb_spec a b) as [Hc|_]; [congruence|].
  fold t1. rewrite E2. cbn [bind]. rewrite E3. cbn [bind]. clearbody nq'.
  unfold swap_list. rewrite (Hn3 _ _ Hna), (Hn3 _ _ Hnb).
  set (t4 := mkAvl (root t3) (upd (upd (tree t3) a (rechild F nb)) b (rechild F na))).
  assert (Hla : a < length (tree t)) by (eapply nth_error_lt; eauto).
  assert (Hlb : b < length (tree t)) by (eapply nth_error_lt; eauto).
  assert (Hl4 : length (tree t4) = length (tree t)) by (cbn [tree t4]; rewrite !upd_length; auto).
  assert (Hn4 : forall j n, nth_error (tree t) j = Some n -> nth_error (tree t4) (F j) = Some (rechild F n)).
  { intros j n Hj. cbn [tree t4]. destruct (Nat.eq_dec j a) as [->|Hja]; [|destruct (Nat.eq_dec j b) as [->|Hjb]].
    - replace (F a) with b by (symmetry; apply sw_a). rewrite nth_upd_eq by (rewrite upd_length; lia). congruence.
    - replace (F b) with a by (symmetry; apply sw_b). rewrite nth_upd_ne by auto. rewrite nth_upd_eq by lia. congruence.
    - replace (F j) with j by (symmetry; apply sw_ne; auto). rewrite !nth_upd_ne by auto. auto. }
  assert (Ha4 : nth_error (tree t4) a = Some (rechild F nb)).
  { rewrite <- (Hn4 _ _ Hnb). unfold F. rewrite sw_b. reflexivity. }
  assert (Hb4 : nth_error (tree t4) b = Some (rechild F na)).
  { rewrite <- (Hn4 _ _ Hna). unfold F. rewrite sw_a. reflexivity. }
  assert (Hex : forall t' x o, length (tree t') = length (tree t) -> In x (ino s) ->
     (forall n, nth_error (tree t) x = Some n -> o = left_node n \/ o = right_node n) ->
     forall i, option_map F o = Some i -> exists n, nth_error (tree t') i = Some n).
  { intros t' x o Hlen Hx Ho i Hi. destruct (repr_in _ _ _ _ Hrepr Hx) as (n & Hn). specialize (Ho _ Hn).
    destruct o as [k|]; [|discriminate]. cbn in Hi. injection Hi as <-.
    assert (Hk : In k (ino s)).
    { eapply (link_child_in _ _ Hrepr Hbal Hnd x n); auto. destruct Ho as [<- | <-]; auto. }
    destruct (repr_in _ _ _ _ Hrepr Hk) as (nk & Hnk). pose proof (nth_error_lt _ _ _ (Hn4 _ _ Hnk)) as Hlt.
    rewrite Hl4, <- Hlen in Hlt. apply nth_error_Some in Hlt. destruct (nth_error (tree t') (F k)); [eauto|congruence]. }
  rewrite (index_ok _ _ _ Ha4). cbn [bind].
  destruct (reparent_spec t4 (left_node (rechild F nb)) a) as (t5 & E5 & Hr5 & Hl5 & Hn5).
  { cbn [rechild left_node]. eapply Hex with (x := b); auto. intros n Hn. left. congruence. }
  rewrite E5. cbn [bind].
  assert (Ha5 : exists n5, nth_error (tree t5) a = Some n5 /\ right_node n5 = option_map F (right_node nb)).
  { eexists. split; [apply Hn5; exact Ha4|]. destruct (opt_is _ _); reflexivity. }
  destruct Ha5 as (n5 & Ha5 & Hn5r). rewrite (index_ok _ _ _ Ha5). cbn [bind]. rewrite Hn5r.
  destruct (reparent_spec t5 (option_map F (right_node nb)) a) as (t6 & E6 & Hr6 & Hl6 & Hn6).
  { eapply Hex with (x := b); auto; [congruence|]. intros n Hn. right. congruence. }
  rewrite E6. cbn [bind].
  assert (Hb6 : exists n6, nth_error (tree t6) b = Some n6 /\ left_node n6 = option_map F (left_node na)).
  { eexists. split; [apply Hn6; apply Hn5; exact Hb4|]. destruct (opt_is _ _), (opt_is _ _); reflexivity. }
  destruct Hb6 as (n6 & Hb6 & Hn6l). rewrite (index_ok _ _ _ Hb6). cbn [bind]. rewrite Hn6l.
  destruct (reparent_spec t6 (option_map F (left_node na)) b) as (t7 & E7 & Hr7 & Hl7 & Hn7).
  { eapply Hex with (x := a); auto; [congruence|]. intros n Hn. left. congruence. }
  rewrite E7. cbn [bind].
  assert (Hb7 : exists n7, nth_error (tree t7) b = Some n7 /\ right_node n7 = option_map F (right_node na)).
  { eexists. split; [apply Hn7; apply Hn6; apply Hn5; exact Hb4|].
    destruct (opt_is _ _), (opt_is _ _), (opt_is _ _); reflexivity. }
  destruct Hb7 as (n7 & Hb7 & Hn7r). rewrite (index_ok _ _ _ Hb7). cbn [bind]. rewrite Hn7r.
  destruct (reparent_spec t7 (option_map F (right_node na)) b) as (t8 & E8 & Hr8 & Hl8 & Hn8).
  { eapply Hex with (x := a); auto; [congruence|]. intros n Hn. right. congruence. }
  exists t8. split; [exact E8|]. split; [|split].
  { rewrite relabel_rt. fold F. rewrite Hr8, Hr7, Hr6, Hr5. exact Hr3. }
  { congruence. }
  intros j n Hj. fold F. rewrite (Hn8 _ _ (Hn7 _ _ (Hn6 _ _ (Hn5 _ _ (Hn4 _ _ Hj))))).
  f_equal. cbn [rechild left_node right_node].
  assert (Hinj : forall x y, F x = F y -> x = y).
  { intros x y Hxy. rewrite <- (sw_invol a b x), <- (sw_invol a b y). unfold F in Hxy. rewrite Hxy. reflexivity. }
  assert (Hopt : forall (o : option nat), opt_is (option_map F o) (F j) = opt_is o j).
  { intros [k|]; cbn; auto. destruct (Nat.eqb_spec k j), (Nat.eqb_spec (F k) (F j)); auto; exfalso; subst; auto. }
  rewrite !Hopt.
  (* the parent of j decides *)
  assert (Hch : forall x nx, nth_error (tree t) x = Some nx ->
     (opt_is (left_node nx) j || opt_is (right_node nx) j)%bool = true <-> parent n = Some x).
  { intros x nx Hx. rewrite Bool.orb_true_iff, !opt_is_true. split.
    - intros H. eapply Hhold; eauto.
    - intros H. destruct (link_parent _ _ Hrepr Hbal Hnd _ _ _ (Hat _ _ Hj) H) as (m & (_ & Hm) & Hlr).
      assert (m = nx) as -> by congruence. auto. }
  pose proof (Hch _ _ Hna) as Hca. pose proof (Hch _ _ Hnb) as Hcb.
  unfold relink, rechild, with_parent.
  destruct (opt_is (left_node nb) j) eqn:B1, (opt_is (right_node nb) j) eqn:B2,
           (opt_is (left_node na) j) eqn:B3, (opt_is (right_node na) j) eqn:B4; cbn [orb] in Hca, Hcb;
    cbn [left_node right_node parent height data]; f_equal;
    try (assert (Hx1 : parent n = Some a) by (apply Hca; auto));
    try (assert (Hx2 : parent n = Some b) by (apply Hcb; auto)); try congruence;
    try (rewrite Hx1; cbn; unfold F; rewrite sw_a; reflexivity);
    try (rewrite Hx2; cbn; unfold F; rewrite sw_b; reflexivity).
  unfold F. rewrite option_map_sw_ne; auto.
  - intros Hc. apply Hca in Hc. discriminate.
  - intros Hc. apply Hcb in Hc. discriminate.
Qed.

(** ** The whole reordering *)

Lemma nth_error_In_lt {A} (l : list A) i : i < length l -> exists x, nth_error l i = Some x.
Proof. intros H. apply nth_error_Some in H. destruct (nth_error l i); [eauto|congruence]. Qed.

(** The elements of an index tree. *)
Fixpoint dof (ds : list T) (s : tr) : dtree (option T) :=
  match s with E => Leaf | B l i r => Node (dof ds l) (nth_error ds i) (dof ds r) end.

Lemma dof_relabel f ds ds' s :
  (forall j, In j (ino s) -> nth_error ds' (f j) = nth_error ds j) -> dof ds' (relabel f s) = dof ds s.
Proof.
  induction s as [|l IHl i r IHr]; cbn; intros H; auto.
  rewrite IHl, IHr, H; auto; intros; try apply H; apply in_app_iff; cbn; auto.
Qed.

Record RInv (ds : dtree (option T)) (P : list nat) (t : avl) (sc : tr) (m im : list nat) (i : nat) : Prop := {
  ri_root : root t = rt sc;
  ri_repr : repr (tree t) sc None;
  ri_bal : bal sc;
  ri_perm : Permutation (ino sc) (seq 0 (length (tree t)));
  ri_lenm : length m = length (tree t);
  ri_leni : length im = length (tree t);
  ri_mi : forall j k, nth_error m j = Some k -> nth_error im k = Some j;
  ri_im : forall j k, nth_error im j = Some k -> nth_error m k = Some j;
  ri_pre : map Some (pre sc) = map (nth_error m) P;
  ri_done : firstn i (pre sc) = seq 0 i;
  ri_data : dof (datas t) sc = ds
}.

Lemma firstn_succ_nth {A} (l : list A) i x :
  nth_error l i = Some x -> firstn (S i) l = firstn i l ++ [x].
Proof. revert i; induction l as [|a l IH]; intros [|i] H; cbn in *; try discriminate; [congruence|]. rewrite IH; auto. Qed.

Lemma map_some_inj {A} (l1 l2 : list A) : map Some l1 = map Some l2 -> l1 = l2.
Proof.
  revert l2; induction l1 as [|a l1 IH]; intros [|b l2] H; cbn in H; try discriminate; auto.
  injection H as -> H. rewrite (IH _ H). reflexivity.
Qed.

Lemma nth_skipn {A} (l : list A) i x rest : skipn i l = x :: rest -> nth_error l i = Some x /\ skipn (S i) l = rest.
Proof.
  revert i; induction l as [|a l IH]; intros [|i] H; cbn in *; try discriminate; auto.
  injection H as -> ->. auto.
Qed.

Lemma datas_nth t i : nth_error (datas t) i = option_map data (nth_error (tree t) i).
Proof. unfold datas. apply nth_error_map. Qed.

Lemma map_upd_swap m p k i dest P :
  nth_error m p = Some dest -> nth_error m k = Some i ->
  (forall j, In j P -> j < length m) ->
  (forall j j' x, nth_error m j = Some x -> nth_error m j' = Some x -> j = j') ->
  map (nth_error (upd (upd m p i) k dest)) P = map (fun o => option_map (sw i dest) o) (map (nth_error m) P).
Proof.
  intros Hp Hk HP Hinj. rewrite map_map. apply map_ext_in. intros j Hj.
  destruct (nth_error_In_lt _ _ (HP _ Hj)) as (x & Hx).
  pose proof (nth_error_lt _ _ _ Hp). pose proof (nth_error_lt _ _ _ Hk).
  destruct (Nat.eq_dec j k) as [->|Hjk].
  - rewrite nth_upd_eq by (rewrite upd_length; auto). rewrite Hk. cbn. rewrite sw_a. reflexivity.
  - rewrite nth_upd_ne by auto. destruct (Nat.eq_dec j p) as [->|Hjp].
    + rewrite nth_upd_eq by auto. rewrite Hp. cbn. rewrite sw_b. reflexivity.
    + rewrite nth_upd_ne by auto. rewrite Hx. cbn. rewrite sw_ne; auto.
      * intros ->. apply Hjk. eapply Hinj; eauto.
      * intros ->. apply Hjp. eapply Hinj; eauto.
Qed.

Lemma reorder_loop_spec ds P : forall rest t sc m im i,
  RInv ds P t sc m im i -> skipn i P = rest ->
  exists t' sc', reorder_loop t m im i rest = Ok t'
    /\ root t' = rt sc' /\ repr (tree t') sc' None /\ bal sc' /\ pre sc' = seq 0 (length (tree t))
    /\ length (tree t') = length (tree t)
    /\ dof (datas t') sc' = ds /\ ht sc' = ht sc.
Proof.
  induction rest as [|p rest IH]; intros t sc m im i Hinv Hskip.
  - destruct Hinv. cbn [reorder_loop]. exists t, sc. ssplit; auto.
    assert (Hlp : length (pre sc) = length (tree t)).
    { rewrite (Permutation_length (pre_perm sc)), (Permutation_length ri_perm0). apply seq_length. }
    assert (HlP : length P = length (tree t)).
    { apply (f_equal (@length _)) in ri_pre0. rewrite !map_length in ri_pre0. congruence. }
    assert (Hi : length P <= i).
    { pose proof (skipn_length i P) as Hl. rewrite Hskip in Hl. cbn in Hl. lia. }
    rewrite firstn_all2 in ri_done0 by lia.
    assert (Hl2 : length (pre sc) = length (seq 0 i)) by congruence. rewrite seq_length in Hl2.
    congruence.
  - destruct (nth_skipn _ _ _ _ Hskip) as (Hp & Hrest).
    pose proof Hinv as [Hroot Hrepr Hbal Hperm Hlm Hli Hmi Him Hpre Hdone Hdata].
    assert (Hlp : length (pre sc) = length (tree t)).
    { rewrite (Permutation_length (pre_perm sc)), (Permutation_length Hperm). apply seq_length. }
    assert (HlP : length P = length (tree t)).
    { apply (f_equal (@length _)) in Hpre. rewrite !map_length in Hpre. congruence. }
    pose proof (nth_error_lt _ _ _ Hp) as Hilt.
    assert (Hnd : NoDup (ino sc)).
    { apply (Permutation_NoDup (l := seq 0 (length (tree t)))); [|apply seq_NoDup]. symmetry; auto. }
    assert (Hndp : NoDup (pre sc)).
    { eapply Permutation_NoDup; [symmetry; apply pre_perm|auto]. }
    destruct (nth_error_In_lt (pre sc) i) as (dest & Hdest); [lia|].
    assert (Hmp : nth_error m p = Some dest).
    { assert (Hx : nth_error (map Some (pre sc)) i = nth_error (map (nth_error m) P) i) by congruence.
      rewrite !nth_error_map, Hdest, Hp in Hx. cbn in Hx. congruence. }
    cbn [reorder_loop]. rewrite (index_ok _ _ _ Hmp). cbn [bind].
    assert (Hinj : forall j j' x, nth_error m j = Some x -> nth_error m j' = Some x -> j = j').
    { intros j j' x H1 H2. apply Hmi in H1, H2. congruence. }
    destruct (nth_error_In_lt im i) as (k & Hk); [lia|]. pose proof (Him _ _ Hk) as Hmk.
    pose proof (nth_error_lt _ _ _ Hmp) as Hplt. pose proof (nth_error_lt _ _ _ Hmk) as Hklt.
    pose proof (Hmi _ _ Hmp) as Himd. pose proof (nth_error_lt _ _ _ Himd) as Hdlt.
    assert (HPm : forall j, In j P -> j < length m).
    { intros j Hj. assert (Hx : In (nth_error m j) (map Some (pre sc))) by (rewrite Hpre; apply in_map; auto).
      apply in_map_iff in Hx. destruct Hx as (y & Hy & _). symmetry in Hy. eapply nth_error_lt; eauto. }
    (* the swap *)
    assert (Hsw : exists t', swap_backing_elements t i dest = Ok t' /\ root t' = rt (relabel (sw i dest) sc)
       /\ length (tree t') = length (tree t)
       /\ forall j n, nth_error (tree t) j = Some n -> nth_error (tree t') (sw i dest j) = Some (relink (sw i dest) n)).
    { destruct (Nat.eq_dec i dest) as [<-|Hne].
      - exists t. unfold swap_backing_elements. rewrite Nat.eqb_refl.
        assert (Hid : forall j, sw i i j = j).
        { intros j. unfold sw. destruct (Nat.eqb_spec j i); congruence. }
        assert (Hido : forall o : option nat, option_map (sw i i) o = o).
        { intros [j|]; cbn; [rewrite Hid|]; reflexivity. }
        ssplit; auto.
        + rewrite relabel_rt, Hido. auto.
        + intros j n Hj. rewrite Hid, Hj. f_equal. unfold relink. rewrite !Hido. destruct n; reflexivity.
      - apply swap_spec; auto.
        assert (Hin : In i (pre sc)).
        { apply (Permutation_in _ (Permutation_sym (pre_perm sc))).
          apply (Permutation_in _ (Permutation_sym Hperm)). apply in_seq. lia. }
        pose proof (nth_error_split _ _ Hdest) as (l1 & l2 & Hspl & Hl1).
        assert (Hl1s : l1 = seq 0 i).
        { rewrite <- Hdone, Hspl, <- Hl1, firstn_app, firstn_all, Nat.sub_diag. cbn. rewrite app_nil_r. reflexivity. }
        rewrite Hspl in Hin. apply in_app_iff in Hin. destruct Hin as [Hin|[Hin|Hin]].
        + rewrite Hl1s in Hin. apply in_seq in Hin. lia.
        + congruence.
        + apply in_split in Hin. destruct Hin as (u & v & ->). exists l1, u, v. auto. }
    destruct Hsw as (t' & Esw & Hr' & Hl' & Hn'). rewrite Esw. cbn [bind].
    rewrite (index_ok _ _ _ Hk). cbn [bind].
    destruct (nth_error_In_lt (upd m p i) k) as (y & Hy); [rewrite upd_length; lia|].
    rewrite (index_ok _ _ _ Hy). cbn [bind]. rewrite (index_ok _ _ _ Himd). cbn [bind].
    destruct (IH t' (relabel (sw i dest) sc) (upd (upd m p i) k dest) (upd (upd im dest k) i p) (S i)) as (t2 & sc2 & E2 & H2).
    + constructor; auto.
      * apply repr_relabel with (ns := tree t) (p := None); auto.
      * apply relabel_bal; auto.
      * rewrite relabel_ino, Hl'. rewrite Hperm.
        apply NoDup_Permutation.
        -- apply FinFun.Injective_map_NoDup; [|apply seq_NoDup].
           intros x z Hxz. rewrite <- (sw_invol i dest x), <- (sw_invol i dest z). congruence.
        -- apply seq_NoDup.
        -- assert (Hrange : forall x, In x (seq 0 (length (tree t))) -> In (sw i dest x) (seq 0 (length (tree t)))).
           { intros x Hx. rewrite in_seq in *. unfold sw. destruct (Nat.eqb_spec x i); [lia|]. destruct (Nat.eqb_spec x dest); lia. }
           intros x. split.
           ++ intros Hx. apply in_map_iff in Hx. destruct Hx as (z & <- & Hz). auto.
           ++ intros Hx. rewrite <- (sw_invol i dest x). apply in_map. auto.
      * rewrite !upd_length. congruence.
      * rewrite !upd_length. congruence.
      * intros j z. rewrite !nth_upd, upd_length || idtac.
        destruct (Nat.eq_dec j k) as [->|Hjk].
        -- rewrite nth_upd_eq by (rewrite upd_length; auto). intros Hz. injection Hz as <-.
           destruct (Nat.eq_dec dest i) as [->|Hne].
           ++ rewrite nth_upd_eq by (rewrite upd_length; lia). f_equal. eapply Hinj; eauto.
           ++ rewrite nth_upd_ne by auto. rewrite nth_upd_eq by lia. reflexivity.
        -- rewrite nth_upd_ne by auto. destruct (Nat.eq_dec j p) as [->|Hjp].
           ++ rewrite nth_upd_eq by auto. intros Hz. injection Hz as <-.
              rewrite nth_upd_eq by (rewrite upd_length; lia). reflexivity.
           ++ rewrite nth_upd_ne by auto. intros Hz.
              rewrite nth_upd_ne. 2:{ intros ->. apply Hjk. eapply Hinj; eauto. }
              rewrite nth_upd_ne. 2:{ intros ->. apply Hjp. eapply Hinj; eauto. }
              auto.
      * intros j z.
        destruct (Nat.eq_dec j i) as [->|Hji].
        -- rewrite nth_upd_eq by (rewrite upd_length; lia). intros Hz. injection Hz as <-.
           destruct (Nat.eq_dec k p) as [->|Hne].
           ++ rewrite nth_upd_eq by (rewrite upd_length; lia). congruence.
           ++ rewrite nth_upd_ne by auto. rewrite nth_upd_eq by lia. reflexivity.
        -- rewrite nth_upd_ne by auto. destruct (Nat.eq_dec j dest) as [->|Hjd].
           ++ rewrite nth_upd_eq by auto. intros Hz. injection Hz as <-.
              rewrite nth_upd_eq by (rewrite upd_length; lia). reflexivity.
           ++ rewrite nth_upd_ne by auto. intros Hz. apply Him in Hz.
              rewrite nth_upd_ne. 2:{ intros ->. congruence. }
              rewrite nth_upd_ne. 2:{ intros ->. congruence. }
              auto.
      * rewrite (map_upd_swap _ _ _ _ _ _ Hmp Hmk HPm Hinj), <- Hpre, relabel_pre, !map_map. reflexivity.
      * rewrite relabel_pre. rewrite (firstn_succ_nth _ i i).
        -- rewrite seq_S, firstn_map, Hdone. f_equal.
           rewrite <- (map_id (seq 0 i)) at 2. apply map_ext_in. intros j Hj.
           assert (Hjd : j <> dest).
           { intros ->. pose proof (nth_error_split _ _ Hdest) as (l1 & l2 & Hspl & Hl1).
             rewrite Hspl in Hdone, Hndp. rewrite <- Hl1, firstn_app, firstn_all, Nat.sub_diag in Hdone. cbn in Hdone.
             rewrite app_nil_r in Hdone. apply NoDup_app_inv in Hndp. destruct Hndp as (_ & _ & Hx).
             rewrite <- Hl1 in Hj. rewrite <- Hdone in Hj. apply (Hx dest); cbn; auto. }
           apply in_seq in Hj. apply sw_ne; lia.
        -- rewrite nth_error_map, Hdest. cbn. rewrite sw_b. reflexivity.
      * rewrite <- Hdata. apply dof_relabel. intros j Hj.
        destruct (repr_in _ _ _ _ Hrepr Hj) as (n & Hn).
        rewrite !datas_nth, Hn, (Hn' _ _ Hn). reflexivity.
    + exact Hrest.
    + exists t2, sc2. rewrite Hl' in H2. rewrite relabel_ht in H2. ssplit; try tauto; apply H2.
Qed.

Lemma reorder_spec t s :
  root t = rt s -> repr (tree t) s None -> bal s -> Permutation (ino s) (seq 0 (length (tree t))) ->
  exists t' s', reorder_backing_preorder t = Ok t'
    /\ root t' = rt s' /\ repr (tree t') s' None /\ bal s' /\ pre s' = seq 0 (length (tree t))
    /\ length (tree t') = length (tree t)
    /\ dof (datas t') s' = dof (datas t) s /\ ht s' = ht s.
Proof.
  intros Hroot Hrepr Hbal Hperm. unfold reorder_backing_preorder.
  assert (Hl : length (ino s) = length (tree t)).
  { rewrite (Permutation_length Hperm). apply seq_length. }
  rewrite (preorder_indices_spec _ _ Hroot Hrepr Hl). cbn [bind].
  assert (Hlp : length (pre s) = length (tree t)) by (rewrite (Permutation_length (pre_perm s)); auto).
  rewrite Hlp.
  assert (Hseq : forall n j k, nth_error (seq 0 n) j = Some k -> k = j /\ j < n).
  { intros n j k H. pose proof (nth_error_lt _ _ _ H) as Hx. rewrite seq_length in Hx.
    apply nth_error_nth with (d := 0) in H. rewrite seq_nth in H by auto. lia. }
  assert (Hseq2 : forall n j, j < n -> nth_error (seq 0 n) j = Some j).
  { intros n j H. rewrite (nth_error_nth' _ 0) by (rewrite seq_length; auto). rewrite seq_nth; auto. }
  eapply reorder_loop_spec with (i := 0); [|reflexivity].
  constructor; auto; try apply seq_length.
  - intros j k H. apply Hseq in H. destruct H as (-> & H). auto.
  - intros j k H. apply Hseq in H. destruct H as (-> & H). auto.
  - apply map_ext_in. intros j Hj. symmetry. apply Hseq2.
    apply (Permutation_in _ (pre_perm s)) in Hj. apply (Permutation_in _ Hperm) in Hj. apply in_seq in Hj. lia.
Qed.

End P.
