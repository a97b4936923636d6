(** Proofs about the AVL model: shape trees, zippers, rotations, rebalancing. *)
From Verif Require Import M_Base M_Avl P_Base.
From Coq Require Import ZifyBool ZifyNat ZifyN Permutation Sorted Arith.

(** Shape of an arena: a tree of backing indices. *)
Inductive tr := E | B (l : tr) (i : nat) (r : tr).

Definition rt (t : tr) : option nat := match t with E => None | B _ i _ => Some i end.
Fixpoint ht (t : tr) : Z := match t with E => 0%Z | B l _ r => (1 + Z.max (ht l) (ht r))%Z end.
Fixpoint bal (t : tr) : Prop :=
  match t with E => True | B l _ r => bal l /\ bal r /\ (-1 <= ht l - ht r <= 1)%Z end.
Fixpoint ino (t : tr) : list nat := match t with E => [] | B l i r => ino l ++ i :: ino r end.
Fixpoint pre (t : tr) : list nat := match t with E => [] | B l i r => i :: pre l ++ pre r end.

Inductive frame := FL (i : nat) (r : tr) | FR (l : tr) (i : nat).
Definition ctx := list frame.
Definition fidx (f : frame) := match f with FL i _ => i | FR _ i => i end.
Definition fsib (f : frame) := match f with FL _ r => r | FR l _ => l end.
Definition fdir (f : frame) := match f with FL _ _ => DLeft | FR _ _ => DRight end.
Definition plug1 (f : frame) (t : tr) := match f with FL i r => B t i r | FR l i => B l i t end.
Fixpoint plug (c : ctx) (t : tr) : tr :=
  match c with [] => t | f :: c' => plug c' (plug1 f t) end.
Definition cpar (c : ctx) : option nat := match c with [] => None | f :: _ => Some (fidx f) end.
Fixpoint rootof (c : ctx) (hole : option nat) : option nat :=
  match c with [] => hole | f :: c' => rootof c' (Some (fidx f)) end.
Fixpoint cl (c : ctx) : list nat :=
  match c with [] => [] | FL _ _ :: c' => cl c' | FR l i :: c' => cl c' ++ ino l ++ [i] end.
Fixpoint cr (c : ctx) : list nat :=
  match c with [] => [] | FL i r :: c' => (i :: ino r) ++ cr c' | FR _ _ :: c' => cr c' end.

Lemma ht_nonneg t : (0 <= ht t)%Z.
Proof. induction t; cbn [ht]; lia. Qed.

Lemma plug_ino c : forall t, ino (plug c t) = cl c ++ ino t ++ cr c.
Proof.
  induction c as [|[i r|l i] c IH]; intros t; cbn [plug plug1 cl cr].
  - rewrite app_nil_r. reflexivity.
  - rewrite IH. cbn [ino]. rewrite <- !app_assoc. reflexivity.
  - rewrite IH. cbn [ino]. rewrite <- !app_assoc. reflexivity.
Qed.

Lemma rt_plug c : forall t, rt (plug c t) = rootof c (rt t).
Proof.
  induction c as [|f c IH]; intros t; cbn; auto. rewrite IH. destruct f; reflexivity.
Qed.

Section P.
Context {T : Type}.
Notation node := (node T).
Notation avl := (avl T).
Implicit Types (ns : list node) (t : avl).

(** The arena represents the shape with parent links and stored heights. *)
Fixpoint repr ns (s : tr) (p : option nat) : Prop :=
  match s with
  | E => True
  | B l i r => exists n, nth_error ns i = Some n /\ left_node n = rt l /\ right_node n = rt r
      /\ parent n = p /\ height n = ht s /\ repr ns l (Some i) /\ repr ns r (Some i)
  end.

(** Ancestors of a hole: [hole] is the link stored at the hole, [h] the height
    that the stored heights and the balance of the ancestors account for. *)
Fixpoint crepr ns (c : ctx) (hole : option nat) (h : Z) : Prop :=
  match c with
  | [] => True
  | f :: c' => exists n, nth_error ns (fidx f) = Some n
      /\ (match f with FL _ r => left_node n = hole /\ right_node n = rt r
                     | FR l _ => left_node n = rt l /\ right_node n = hole end)
      /\ parent n = cpar c' /\ height n = (1 + Z.max h (ht (fsib f)))%Z
      /\ (-1 <= h - ht (fsib f) <= 1)%Z
      /\ repr ns (fsib f) (Some (fidx f)) /\ bal (fsib f)
      /\ crepr ns c' (Some (fidx f)) (1 + Z.max h (ht (fsib f)))%Z
  end.

Definition felems (f : frame) := fidx f :: ino (fsib f).
Fixpoint celems (c : ctx) : list nat :=
  match c with [] => [] | f :: c' => felems f ++ celems c' end.

Lemma celems_perm c : Permutation (celems c) (cl c ++ cr c).
Proof.
  induction c as [|[i r|l i] c IH]; cbn [celems felems fidx fsib cl cr]; auto.
  - rewrite IH. cbn. rewrite <- Permutation_middle. constructor.
    rewrite !app_assoc. apply Permutation_app_tail. apply Permutation_app_comm.
  - rewrite IH. cbn. rewrite <- !app_assoc. cbn.
    transitivity (cl c ++ i :: (ino l ++ cr c)).
    + rewrite <- Permutation_middle. constructor. rewrite !app_assoc.
      apply Permutation_app_tail. apply Permutation_app_comm.
    + apply Permutation_app_head. rewrite <- Permutation_middle. reflexivity.
Qed.

Lemma repr_frame ns ns' s p :
  (forall j, In j (ino s) -> nth_error ns' j = nth_error ns j) -> repr ns s p -> repr ns' s p.
Proof.
  revert p; induction s as [|l IHl i r IHr]; intros p Hf; cbn [repr]; auto.
  intros (n & Hn & Hl & Hr & Hp & Hh & Hrl & Hrr).
  exists n. rewrite Hf by (cbn; rewrite in_app_iff; cbn; auto).
  ssplit; auto; try lia.
  - apply IHl; auto. intros j Hj. apply Hf. cbn. rewrite in_app_iff; auto.
  - apply IHr; auto. intros j Hj. apply Hf. cbn. rewrite in_app_iff; cbn; auto.
Qed.

Lemma crepr_frame ns ns' c : forall hole h,
  (forall j, In j (celems c) -> nth_error ns' j = nth_error ns j) -> crepr ns c hole h -> crepr ns' c hole h.
Proof.
  induction c as [|f c IH]; intros hole h Hf; cbn [crepr]; auto.
  intros (n & Hn & Hl & Hp & Hh & Hb & Hrs & Hbs & Hc).
  exists n. cbn [celems felems] in Hf. rewrite Hf by (cbn; auto).
  ssplit; auto; try lia.
  - eapply repr_frame; [|exact Hrs]. intros j Hj. apply Hf. cbn. rewrite in_app_iff. auto.
  - apply IH; auto. intros j Hj. apply Hf. cbn. rewrite in_app_iff. auto.
Qed.

Lemma repr_in ns s p i : repr ns s p -> In i (ino s) -> exists n, nth_error ns i = Some n.
Proof.
  revert p; induction s as [|l IHl j r IHr]; intros p; cbn; [tauto|].
  intros (n & Hn & _ & _ & _ & _ & Hl & Hr). rewrite in_app_iff. cbn.
  intros [H|[<-|H]]; eauto.
Qed.

(** plugging a represented subtree back *)
Lemma plug_repr ns c : forall s,
  repr ns s (cpar c) -> bal s -> crepr ns c (rt s) (ht s) -> repr ns (plug c s) None /\ bal (plug c s).
Proof.
  induction c as [|f c IH]; intros s Hs Hb Hc; cbn [plug]; auto.
  cbn [crepr] in Hc. destruct Hc as (n & Hn & Hlr & Hp & Hh & Hbb & Hrs & Hbs & Hc).
  apply IH.
  - destruct f as [i r|l i]; cbn in *; exists n; intuition auto. rewrite Hh. f_equal. apply Z.max_comm.
  - destruct f; cbn in *; ssplit; auto; lia.
  - destruct f as [i r|l i]; cbn in *; auto. rewrite (Z.max_comm (ht l)). auto.
Qed.

(** A zipper into a represented tree. *)
Lemma unplug_repr ns c : forall s,
  repr ns (plug c s) None -> bal (plug c s) ->
  repr ns s (cpar c) /\ bal s /\ crepr ns c (rt s) (ht s).
Proof.
  induction c as [|f c IH]; intros s; cbn [plug]; [cbn; auto|].
  intros Hr Hb. destruct (IH _ Hr Hb) as (H1 & H2 & H3).
  destruct f as [i r|l i]; cbn in *; destruct H1 as (n & Hn & Hl & Hrr & Hp & Hh & Hr1 & Hr2);
    ssplit; try tauto; exists n; ssplit; auto; try tauto; try lia.
  rewrite (Z.max_comm (ht s)). auto.
Qed.

(** ** Elementary operations *)

Lemma opt_is_true o i : opt_is o i = true <-> o = Some i.
Proof. destruct o as [j|]; cbn; [rewrite Nat.eqb_eq|]; split; congruence. Qed.

Lemma opt_is_refl i : opt_is (Some i) i = true.
Proof. apply Nat.eqb_refl. Qed.

Lemma opt_is_false o i : o <> Some i -> opt_is o i = false.
Proof. destruct (opt_is o i) eqn:H; auto. apply opt_is_true in H. congruence. Qed.

Lemma rt_in s i : rt s = Some i -> In i (ino s).
Proof. destruct s; cbn; [congruence|]. intros H; injection H as ->. rewrite in_app_iff; cbn; auto. Qed.

Lemma parent_direction_nil t i n :
  nth_error (tree t) i = Some n -> parent n = None -> parent_direction t i = Ok None.
Proof. intros Hn Hp. unfold parent_direction. rewrite (index_ok _ _ _ Hn). cbn. rewrite Hp. auto. Qed.

Lemma parent_direction_cons t i n f c h :
  nth_error (tree t) i = Some n -> parent n = Some (fidx f) ->
  crepr (tree t) (f :: c) (Some i) h -> ~ In i (ino (fsib f)) ->
  parent_direction t i = Ok (Some (fidx f, fdir f)).
Proof.
  intros Hn Hp (m & Hm & Hlr & _) Hin. unfold parent_direction.
  rewrite (index_ok _ _ _ Hn); cbn [bind]. rewrite Hp. rewrite (index_ok _ _ _ Hm); cbn [bind].
  destruct f as [j r|l j]; cbn in *; destruct Hlr as [Hl Hr].
  - rewrite Hl, opt_is_refl. auto.
  - rewrite Hl, Hr, opt_is_refl. rewrite opt_is_false; auto. intros H; apply Hin, rt_in, H.
Qed.

Lemma modify_ok t i f n :
  nth_error (tree t) i = Some n -> modify t i f = Ok (mkAvl (root t) (upd (tree t) i (f n))).
Proof. intros H. unfold modify. rewrite (index_ok _ _ _ H). auto. Qed.

(** Replacing the link to the focus in its parent (or the root). *)
Lemma set_parent_ref_spec t c i n j h :
  nth_error (tree t) i = Some n -> parent n = cpar c -> root t = rootof c (Some i) ->
  crepr (tree t) c (Some i) h -> NoDup (celems c) -> ~ In i (celems c) ->
  exists t', set_parent_ref t i (Some j) = Ok t' /\ root t' = rootof c (Some j)
    /\ crepr (tree t') c (Some j) h
    /\ (forall k, ~ In k (celems c) -> nth_error (tree t') k = nth_error (tree t) k)
    /\ length (tree t') = length (tree t).
Proof.
  intros Hn Hp Hroot Hc Hnd Hi. destruct c as [|f c].
  - unfold set_parent_ref, parent_node_ref. rewrite (parent_direction_nil _ _ _ Hn Hp). cbn.
    eexists; ssplit; eauto.
  - assert (Hs : ~ In i (ino (fsib f))) by (intros H; apply Hi; cbn; rewrite in_app_iff; auto).
    unfold set_parent_ref, parent_node_ref.
    rewrite (parent_direction_cons _ _ _ _ _ _ Hn Hp Hc Hs). cbn [bind].
    pose proof Hc as Hc0.
    destruct Hc as (m & Hm & Hlr & Hpm & Hh & Hbb & Hrs & Hbs & Hc).
    cbn [celems felems] in Hnd, Hi. cbn in Hnd. rewrite NoDup_cons_iff in Hnd. destruct Hnd as [Hnf Hnd].
    rewrite in_app_iff in Hnf.
    pose proof (nth_error_lt _ _ _ Hm) as Hlt.
    assert (Hfr : forall g k, k <> fidx f -> nth_error (upd (tree t) (fidx f) (g m)) k = nth_error (tree t) k).
    { intros g k Hk. apply nth_upd_ne. auto. }
    destruct f as [q r|l q]; cbn [bind fdir fidx fsib store_ref] in *;
      rewrite (modify_ok _ _ _ _ Hm); eexists; (split; [reflexivity|]); cbn [tree root];
      (split; [exact Hroot|]); (split; [|split; [|apply upd_length]]).
    + exists (with_left (Some j) m). rewrite nth_upd_eq by auto. cbn. destruct Hlr.
      ssplit; auto; try tauto.
      * eapply repr_frame; [|exact Hrs]. intros k Hk. apply Hfr. intros ->. tauto.
      * eapply crepr_frame; [|exact Hc]. intros k Hk. apply Hfr. intros ->. tauto.
    + intros k Hk. apply Hfr. intros ->. apply Hk. cbn. auto.
    + exists (with_right (Some j) m). rewrite nth_upd_eq by auto. cbn. destruct Hlr.
      ssplit; auto; try tauto.
      * eapply repr_frame; [|exact Hrs]. intros k Hk. apply Hfr. intros ->. tauto.
      * eapply crepr_frame; [|exact Hc]. intros k Hk. apply Hfr. intros ->. tauto.
    + intros k Hk. apply Hfr. intros ->. apply Hk. cbn. auto.
Qed.

Lemma child_height_ok t s p : repr (tree t) s p -> child_height t (rt s) = Ok (ht s).
Proof.
  destruct s as [|l i r]; cbn; auto. intros (n & Hn & _ & _ & _ & Hh & _).
  rewrite (index_ok _ _ _ Hn). cbn. congruence.
Qed.

Lemma update_node_height_ok t i n l r p q :
  nth_error (tree t) i = Some n -> left_node n = rt l -> right_node n = rt r ->
  repr (tree t) l p -> repr (tree t) r q ->
  update_node_height t i = Ok (mkAvl (root t) (upd (tree t) i (with_height (1 + Z.max (ht l) (ht r)) n))).
Proof.
  intros Hn Hl Hr Hrl Hrr. unfold update_node_height. rewrite (index_ok _ _ _ Hn); cbn [bind].
  rewrite Hl, Hr, (child_height_ok _ _ _ Hrl), (child_height_ok _ _ _ Hrr). cbn [bind].
  apply modify_ok; auto.
Qed.

Lemma balance_factor_ok t i n l r p q :
  nth_error (tree t) i = Some n -> left_node n = rt l -> right_node n = rt r ->
  repr (tree t) l p -> repr (tree t) r q -> balance_factor t i = Ok (ht l - ht r)%Z.
Proof.
  intros Hn Hl Hr Hrl Hrr. unfold balance_factor. rewrite (index_ok _ _ _ Hn); cbn [bind].
  rewrite Hl, Hr, (child_height_ok _ _ _ Hrl), (child_height_ok _ _ _ Hrr). auto.
Qed.

(** Setting a child: the child's root gets the new parent. *)
Lemma repr_reparent_root ns s p q :
  repr ns s p -> NoDup (ino s) ->
  match s with
  | E => True
  | B _ i _ => forall n, nth_error ns i = Some n -> repr (upd ns i (with_parent q n)) s q
  end.
Proof.
  destruct s as [|l i r]; auto. intros (n & Hn & Hl & Hr & Hp & Hh & Hrl & Hrr) Hnd n' Hn'.
  assert (n' = n) as -> by congruence.
  cbn in Hnd. apply NoDup_app_inv in Hnd. destruct Hnd as (_ & Hnd & Hx).
  rewrite NoDup_cons_iff in Hnd.
  exists (with_parent q n). rewrite nth_upd_eq by (eapply nth_error_lt; eauto). cbn.
  ssplit; auto; try lia.
  - eapply repr_frame; [|exact Hrl]. intros j Hj. apply nth_upd_ne. intros ->. apply (Hx j); cbn; auto.
  - eapply repr_frame; [|exact Hrr]. intros j Hj. apply nth_upd_ne. intros ->. tauto.
Qed.

Lemma set_child_spec (left : bool) t i n s p :
  nth_error (tree t) i = Some n -> repr (tree t) s p -> NoDup (ino s) -> ~ In i (ino s) ->
  exists t', (if left then set_left_child t i (rt s) else set_right_child t i (rt s)) = Ok t'
    /\ root t' = root t
    /\ nth_error (tree t') i = Some (if left then with_left (rt s) n else with_right (rt s) n)
    /\ repr (tree t') s (Some i)
    /\ (forall k, k <> i -> ~ In k (ino s) -> nth_error (tree t') k = nth_error (tree t) k)
    /\ length (tree t') = length (tree t).
Proof.
  intros Hn Hs Hnd Hi.
  pose (f := fun m : node => if left then with_left (rt s) m else with_right (rt s) m).
  pose (t1 := mkAvl (root t) (upd (tree t) i (f n))).
  assert (H1 : modify t i f = Ok t1) by (apply modify_ok; auto).
  assert (Hlt : i < length (tree t)) by (eapply nth_error_lt; eauto).
  assert (Hs1 : repr (tree t1) s p).
  { eapply repr_frame; [|exact Hs]. intros j Hj. apply nth_upd_ne. intros ->; auto. }
  assert (Heq : (if left then set_left_child t i (rt s) else set_right_child t i (rt s))
                = match rt s with Some j => modify t1 j (with_parent (Some i)) | None => Ok t1 end).
  { unfold set_left_child, set_right_child.
    destruct left; [change (with_left (rt s)) with f | change (with_right (rt s)) with f]; rewrite H1; auto. }
  rewrite Heq. destruct s as [|l j r].
  - cbn. exists t1. cbn. ssplit; auto.
    + rewrite nth_upd_eq by auto. unfold f. destruct left; auto.
    + intros k Hk _. apply nth_upd_ne; auto.
    + apply upd_length.
  - cbn [rt]. destruct Hs1 as (m & Hm & Hrest).
    rewrite (modify_ok _ _ _ _ Hm). eexists; split; [reflexivity|]. cbn [root tree].
    assert (Hij : j <> i) by (intros ->; apply Hi; cbn; rewrite in_app_iff; cbn; auto).
    ssplit.
    + reflexivity.
    + rewrite nth_upd_ne by auto. cbn. rewrite nth_upd_eq by auto. unfold f. destruct left; auto.
    + apply (repr_reparent_root (tree t1) (B l j r) p (Some i)); auto. exists m; auto.
    + intros k Hk Hk'. rewrite nth_upd_ne. 2:{ intros ->. apply Hk'. cbn. rewrite in_app_iff; cbn; auto. }
      apply nth_upd_ne; auto.
    + rewrite upd_length. apply upd_length.
Qed.

(** ** Rotations *)

Fixpoint cnt (z : nat) (l : list nat) : nat :=
  match l with [] => 0 | y :: l' => (if Nat.eqb z y then 1 else 0) + cnt z l' end.
Lemma cnt_app z l1 l2 : cnt z (l1 ++ l2) = cnt z l1 + cnt z l2.
Proof. induction l1; cbn; lia. Qed.
Lemma In_cnt z l : In z l <-> 0 < cnt z l.
Proof.
  induction l as [|y l IH]; cbn; [lia|].
  destruct (Nat.eqb_spec z y) as [->|H]; rewrite IH; lia.
Qed.
Lemma NoDup_cnt l : NoDup l <-> forall z, cnt z l <= 1.
Proof.
  induction l as [|y l IH]; cbn.
  - split; [lia|constructor].
  - rewrite NoDup_cons_iff, IH, In_cnt. split.
    + intros [H1 H2] z. specialize (H2 z). destruct (Nat.eqb_spec z y) as [->|H]; lia.
    + intros H. split; [specialize (H y); rewrite Nat.eqb_refl in H; lia|].
      intros z; specialize (H z); lia.
Qed.

(** Disjointness solver: [Hnd : forall z, cnt z l <= 1] in the context. *)
Ltac cnt_norm := rewrite ?In_cnt, ?NoDup_cnt in *;
  cbn [ino celems felems fidx fsib cnt] in *; rewrite ?cnt_app in *; cbn [cnt ino] in *; rewrite ?cnt_app in *.
Ltac nd Hnd z := exfalso; pose proof (Hnd z) as Hnd'; repeat (progress cnt_norm); rewrite ?Nat.eqb_refl in *; lia.

Lemma upd_same {A} (l : list A) i x : nth_error l i = Some x -> upd l i x = l.
Proof.
  revert i; induction l as [|y l IH]; intros [|i]; cbn; try congruence.
  intros H. f_equal. auto.
Qed.

Lemma with_height_same (n : node) : with_height (height n) n = n.
Proof. destruct n; reflexivity. Qed.

Lemma update_node_height_same t l i r p :
  repr (tree t) (B l i r) p -> update_node_height t i = Ok t.
Proof.
  intros (n & Hn & Hl & Hr & Hp & Hh & Hrl & Hrr).
  rewrite (update_node_height_ok _ _ _ _ _ _ _ Hn Hl Hr Hrl Hrr).
  cbn [ht] in Hh. rewrite <- Hh, with_height_same, upd_same by auto. destruct t; reflexivity.
Qed.

Lemma r_rotate_spec t c h x1 k x2 b y a o n :
  let x := B x1 k x2 in
  nth_error (tree t) a = Some n -> left_node n = Some b -> right_node n = rt o -> parent n = cpar c ->
  repr (tree t) (B x b y) (Some a) -> repr (tree t) o (Some a) ->
  root t = rootof c (Some a) -> crepr (tree t) c (Some a) h ->
  NoDup (ino (B (B x b y) a o) ++ celems c) ->
  exists t', r_rotate t a b k = Ok t' /\ root t' = rootof c (Some b)
    /\ repr (tree t') (B x b (B y a o)) (cpar c) /\ crepr (tree t') c (Some b) h
    /\ length (tree t') = length (tree t).
Proof.
  intros x Hn Hl Hr Hp Hs Ho Hroot Hc Hnd.
  assert (Hnd0 : forall z, cnt z (ino (B (B x b y) a o) ++ celems c) <= 1) by (apply NoDup_cnt; auto).
  destruct Hs as (nb & Hnb & Hlb & Hrb & Hpb & Hhb & Hx & Hy).
  assert (Hab : a <> b) by (intros ->; nd Hnd0 b).
  unfold r_rotate. rewrite (index_ok _ _ _ Hn); cbn [bind]. rewrite Hl, opt_is_refl; cbn [rassert bind].
  rewrite (index_ok _ _ _ Hnb); cbn [bind]. rewrite Hlb; cbn [rt x]; rewrite opt_is_refl; cbn [rassert bind].
  destruct (set_parent_ref_spec t c a n b h) as (t1 & Ht1 & Hroot1 & Hc1 & Hf1 & Hlen1); auto.
  { apply NoDup_cnt. intros z. specialize (Hnd0 z). cnt_norm. lia. }
  { intros Hin. nd Hnd0 a. }
  rewrite Ht1; cbn [bind].
  assert (Hfo1 : forall z, cnt z (celems c) = 0 -> nth_error (tree t1) z = nth_error (tree t) z).
  { intros z Hz. apply Hf1. rewrite In_cnt. lia. }
  assert (Hn1 : nth_error (tree t1) a = Some n).
  { rewrite Hf1; auto. intros Hin. nd Hnd0 a. }
  assert (Hnb1 : nth_error (tree t1) b = Some nb).
  { rewrite Hf1; auto. intros Hin. nd Hnd0 b. }
  assert (Hfr1 : forall s p, (forall z, In z (ino s) -> ~ In z (celems c)) -> repr (tree t) s p -> repr (tree t1) s p).
  { intros s p Hd. apply repr_frame. intros z Hz. apply Hf1. auto. }
  assert (Hx1 : repr (tree t1) x (Some b)).
  { apply Hfr1; auto. intros z Hz Hz'. nd Hnd0 z. }
  assert (Hy1 : repr (tree t1) y (Some b)).
  { apply Hfr1; auto. intros z Hz Hz'. nd Hnd0 z. }
  assert (Ho1 : repr (tree t1) o (Some a)).
  { apply Hfr1; auto. intros z Hz Hz'. nd Hnd0 z. }
  clear Hfr1.
  rewrite (modify_ok _ _ _ _ Hnb1); cbn [bind tree root].
  rewrite (index_ok _ _ (with_parent (parent n) nb)) by (apply nth_upd_eq; eapply nth_error_lt; eauto).
  cbn [bind left_node right_node with_parent]. rewrite Hrb.
  set (t2 := mkAvl (root t1) (upd (tree t1) b (with_parent (parent n) nb))).
  destruct (set_child_spec true t2 a n y (Some b)) as (t3 & Ht3 & Hroot3 & Hn3 & Hy3 & Hf3 & Hlen3).
  { cbn. rewrite nth_upd_ne; auto. }
  { eapply repr_frame; [|exact Hy1]. intros z Hz. apply nth_upd_ne. intros ->. nd Hnd0 z. }
  { apply NoDup_cnt. intros z. specialize (Hnd0 z). cnt_norm. lia. }
  { intros Hin. nd Hnd0 a. }
  rewrite Ht3; cbn [bind].
  assert (Hnb3 : nth_error (tree t3) b = Some (with_parent (parent n) nb)).
  { rewrite Hf3; auto. cbn. apply nth_upd_eq. eapply nth_error_lt; eauto. intros Hin. nd Hnd0 b. }
  assert (Hx3 : repr (tree t3) x (Some b)).
  { eapply repr_frame; [|exact Hx1]. intros z Hz. rewrite Hf3. cbn. apply nth_upd_ne.
    intros ->; nd Hnd0 z. intros ->; nd Hnd0 a. intros Hz'. nd Hnd0 z. }
  assert (Ho3 : repr (tree t3) o (Some a)).
  { eapply repr_frame; [|exact Ho1]. intros z Hz. rewrite Hf3. cbn. apply nth_upd_ne.
    intros ->; nd Hnd0 z. intros ->; nd Hnd0 a. intros Hz'. nd Hnd0 z. }
  assert (Hc3 : crepr (tree t3) c (Some b) h).
  { eapply crepr_frame; [|exact Hc1]. intros z Hz. rewrite Hf3. cbn. apply nth_upd_ne.
    intros ->; nd Hnd0 z. intros ->; nd Hnd0 a. intros Hz'. nd Hnd0 z. }
  unfold set_right_child. rewrite (modify_ok _ _ _ _ Hnb3); cbn [bind].
  rewrite (modify_ok _ a _ (with_left (rt y) n)) by (cbn; rewrite nth_upd_ne; auto).
  cbn [bind tree root].
  set (na4 := with_parent (Some b) (with_left (rt y) n)).
  set (nb4 := with_right (Some a) (with_parent (parent n) nb)).
  set (t4 := mkAvl (root t3) (upd (upd (tree t3) b nb4) a na4)).
  assert (Hfr4 : forall s p, ~ In a (ino s) -> ~ In b (ino s) -> repr (tree t3) s p -> repr (tree t4) s p).
  { intros s p H1 H2. apply repr_frame. intros z Hz. cbn. rewrite !nth_upd_ne; auto; intros ->; auto. }
  assert (Hlta : a < length (tree t3)) by (eapply nth_error_lt; eauto).
  assert (Hltb : b < length (tree t3)) by (eapply nth_error_lt; eauto).
  assert (Hn4 : nth_error (tree t4) a = Some na4).
  { cbn. rewrite nth_upd_eq; auto. rewrite upd_length; auto. }
  assert (Hnb4 : nth_error (tree t4) b = Some nb4).
  { cbn. rewrite nth_upd_ne, nth_upd_eq; auto. }
  assert (Hx4 : repr (tree t4) x (Some b)) by (apply Hfr4; auto; intros Hin; [nd Hnd0 a | nd Hnd0 b]).
  assert (Hy4 : repr (tree t4) y (Some a)) by (apply Hfr4; auto; intros Hin; [nd Hnd0 a | nd Hnd0 b]).
  assert (Ho4 : repr (tree t4) o (Some a)) by (apply Hfr4; auto; intros Hin; [nd Hnd0 a | nd Hnd0 b]).
  rewrite (update_node_height_ok t4 a na4 y o (Some a) (Some a) Hn4); auto. cbn [bind].
  set (na5 := with_height (1 + Z.max (ht y) (ht o)) na4).
  set (t5 := mkAvl (root t4) (upd (tree t4) a na5)).
  assert (Hfr5 : forall s p, ~ In a (ino s) -> repr (tree t4) s p -> repr (tree t5) s p).
  { intros s p H1. apply repr_frame. intros z Hz. apply nth_upd_ne; auto; intros ->; auto. }
  assert (Hn5 : nth_error (tree t5) a = Some na5).
  { cbn. rewrite nth_upd_eq; auto. rewrite !upd_length; auto. }
  assert (Hnb5 : nth_error (tree t5) b = Some nb4).
  { change (nth_error (upd (tree t4) a na5) b = Some nb4). rewrite nth_upd_ne; auto. }
  assert (Hx5 : repr (tree t5) x (Some b)) by (apply Hfr5; auto; intros Hin; nd Hnd0 a).
  assert (Hy5 : repr (tree t5) y (Some a)) by (apply Hfr5; auto; intros Hin; nd Hnd0 a).
  assert (Ho5 : repr (tree t5) o (Some a)) by (apply Hfr5; auto; intros Hin; nd Hnd0 a).
  assert (Hao : repr (tree t5) (B y a o) (Some b)).
  { exists na5. cbn. ssplit; auto. }
  unfold x in Hx5. rewrite (update_node_height_same _ _ _ _ _ Hx5). cbn [bind]. fold x in Hx5.
  rewrite (update_node_height_ok t5 b nb4 x (B y a o) (Some b) (Some b) Hnb5); auto.
  eexists; split; [reflexivity|]. cbn [root tree].
  assert (Hltb5 : b < length (tree t5)) by (eapply nth_error_lt; eauto).
  ssplit.
  - exact (eq_trans Hroot3 Hroot1).
  - exists (with_height (1 + Z.max (ht x) (ht (B y a o))) nb4). rewrite nth_upd_eq by auto.
    cbn [left_node right_node parent height with_height with_right with_parent nb4]. ssplit; auto.
    + eapply repr_frame; [|exact Hx5]. intros z Hz. apply nth_upd_ne. intros ->. nd Hnd0 z.
    + eapply repr_frame; [|exact Hao]. intros z Hz. apply nth_upd_ne. intros ->. nd Hnd0 z.
  - eapply crepr_frame; [|exact Hc3]. intros z Hz. rewrite nth_upd_ne by (intros ->; nd Hnd0 z).
    cbn. rewrite !nth_upd_ne; auto; intros ->; nd Hnd0 z.
  - cbn. rewrite !upd_length. rewrite Hlen3. cbn. rewrite upd_length. auto.
Qed.

Lemma l_rotate_spec t c h x1 k x2 b y a o n :
  let x := B x1 k x2 in
  nth_error (tree t) a = Some n -> right_node n = Some b -> left_node n = rt o -> parent n = cpar c ->
  repr (tree t) (B y b x) (Some a) -> repr (tree t) o (Some a) ->
  root t = rootof c (Some a) -> crepr (tree t) c (Some a) h ->
  NoDup (ino (B o a (B y b x)) ++ celems c) ->
  exists t', l_rotate t a b k = Ok t' /\ root t' = rootof c (Some b)
    /\ repr (tree t') (B (B o a y) b x) (cpar c) /\ crepr (tree t') c (Some b) h
    /\ length (tree t') = length (tree t).
Proof.
  intros x Hn Hl Hr Hp Hs Ho Hroot Hc Hnd.
  assert (Hnd0 : forall z, cnt z (ino (B o a (B y b x)) ++ celems c) <= 1) by (apply NoDup_cnt; auto).
  destruct Hs as (nb & Hnb & Hrb & Hlb & Hpb & Hhb & Hy & Hx).
  assert (Hab : a <> b) by (intros ->; nd Hnd0 b).
  unfold l_rotate. rewrite (index_ok _ _ _ Hn); cbn [bind]. rewrite Hl, opt_is_refl; cbn [rassert bind].
  rewrite (index_ok _ _ _ Hnb); cbn [bind]. rewrite Hlb; cbn [rt x]; rewrite opt_is_refl; cbn [rassert bind].
  destruct (set_parent_ref_spec t c a n b h) as (t1 & Ht1 & Hroot1 & Hc1 & Hf1 & Hlen1); auto.
  { apply NoDup_cnt. intros z. specialize (Hnd0 z). cnt_norm. lia. }
  { intros Hin. nd Hnd0 a. }
  rewrite Ht1; cbn [bind].
  assert (Hfo1 : forall z, cnt z (celems c) = 0 -> nth_error (tree t1) z = nth_error (tree t) z).
  { intros z Hz. apply Hf1. rewrite In_cnt. lia. }
  assert (Hn1 : nth_error (tree t1) a = Some n).
  { rewrite Hf1; auto. intros Hin. nd Hnd0 a. }
  assert (Hnb1 : nth_error (tree t1) b = Some nb).
  { rewrite Hf1; auto. intros Hin. nd Hnd0 b. }
  assert (Hfr1 : forall s p, (forall z, In z (ino s) -> ~ In z (celems c)) -> repr (tree t) s p -> repr (tree t1) s p).
  { intros s p Hd. apply repr_frame. intros z Hz. apply Hf1. auto. }
  assert (Hx1 : repr (tree t1) x (Some b)).
  { apply Hfr1; auto. intros z Hz Hz'. nd Hnd0 z. }
  assert (Hy1 : repr (tree t1) y (Some b)).
  { apply Hfr1; auto. intros z Hz Hz'. nd Hnd0 z. }
  assert (Ho1 : repr (tree t1) o (Some a)).
  { apply Hfr1; auto. intros z Hz Hz'. nd Hnd0 z. }
  clear Hfr1.
  rewrite (modify_ok _ _ _ _ Hnb1); cbn [bind tree root].
  rewrite (index_ok _ _ (with_parent (parent n) nb)) by (apply nth_upd_eq; eapply nth_error_lt; eauto).
  cbn [bind right_node left_node with_parent]. rewrite Hrb.
  set (t2 := mkAvl (root t1) (upd (tree t1) b (with_parent (parent n) nb))).
  destruct (set_child_spec false t2 a n y (Some b)) as (t3 & Ht3 & Hroot3 & Hn3 & Hy3 & Hf3 & Hlen3).
  { cbn. rewrite nth_upd_ne; auto. }
  { eapply repr_frame; [|exact Hy1]. intros z Hz. apply nth_upd_ne. intros ->. nd Hnd0 z. }
  { apply NoDup_cnt. intros z. specialize (Hnd0 z). cnt_norm. lia. }
  { intros Hin. nd Hnd0 a. }
  rewrite Ht3; cbn [bind].
  assert (Hnb3 : nth_error (tree t3) b = Some (with_parent (parent n) nb)).
  { rewrite Hf3; auto. cbn. apply nth_upd_eq. eapply nth_error_lt; eauto. intros Hin. nd Hnd0 b. }
  assert (Hx3 : repr (tree t3) x (Some b)).
  { eapply repr_frame; [|exact Hx1]. intros z Hz. rewrite Hf3. cbn. apply nth_upd_ne.
    intros ->; nd Hnd0 z. intros ->; nd Hnd0 a. intros Hz'. nd Hnd0 z. }
  assert (Ho3 : repr (tree t3) o (Some a)).
  { eapply repr_frame; [|exact Ho1]. intros z Hz. rewrite Hf3. cbn. apply nth_upd_ne.
    intros ->; nd Hnd0 z. intros ->; nd Hnd0 a. intros Hz'. nd Hnd0 z. }
  assert (Hc3 : crepr (tree t3) c (Some b) h).
  { eapply crepr_frame; [|exact Hc1]. intros z Hz. rewrite Hf3. cbn. apply nth_upd_ne.
    intros ->; nd Hnd0 z. intros ->; nd Hnd0 a. intros Hz'. nd Hnd0 z. }
  unfold set_left_child. rewrite (modify_ok _ _ _ _ Hnb3); cbn [bind].
  rewrite (modify_ok _ a _ (with_right (rt y) n)) by (cbn; rewrite nth_upd_ne; auto).
  cbn [bind tree root].
  set (na4 := with_parent (Some b) (with_right (rt y) n)).
  set (nb4 := with_left (Some a) (with_parent (parent n) nb)).
  set (t4 := mkAvl (root t3) (upd (upd (tree t3) b nb4) a na4)).
  assert (Hfr4 : forall s p, ~ In a (ino s) -> ~ In b (ino s) -> repr (tree t3) s p -> repr (tree t4) s p).
  { intros s p H1 H2. apply repr_frame. intros z Hz. cbn. rewrite !nth_upd_ne; auto; intros ->; auto. }
  assert (Hlta : a < length (tree t3)) by (eapply nth_error_lt; eauto).
  assert (Hltb : b < length (tree t3)) by (eapply nth_error_lt; eauto).
  assert (Hn4 : nth_error (tree t4) a = Some na4).
  { cbn. rewrite nth_upd_eq; auto. rewrite upd_length; auto. }
  assert (Hnb4 : nth_error (tree t4) b = Some nb4).
  { cbn. rewrite nth_upd_ne, nth_upd_eq; auto. }
  assert (Hx4 : repr (tree t4) x (Some b)) by (apply Hfr4; auto; intros Hin; [nd Hnd0 a | nd Hnd0 b]).
  assert (Hy4 : repr (tree t4) y (Some a)) by (apply Hfr4; auto; intros Hin; [nd Hnd0 a | nd Hnd0 b]).
  assert (Ho4 : repr (tree t4) o (Some a)) by (apply Hfr4; auto; intros Hin; [nd Hnd0 a | nd Hnd0 b]).
  rewrite (update_node_height_ok t4 a na4 o y (Some a) (Some a) Hn4); auto. cbn [bind].
  set (na5 := with_height (1 + Z.max (ht o) (ht y)) na4).
  set (t5 := mkAvl (root t4) (upd (tree t4) a na5)).
  assert (Hfr5 : forall s p, ~ In a (ino s) -> repr (tree t4) s p -> repr (tree t5) s p).
  { intros s p H1. apply repr_frame. intros z Hz. apply nth_upd_ne; auto; intros ->; auto. }
  assert (Hn5 : nth_error (tree t5) a = Some na5).
  { cbn. rewrite nth_upd_eq; auto. rewrite !upd_length; auto. }
  assert (Hnb5 : nth_error (tree t5) b = Some nb4).
  { change (nth_error (upd (tree t4) a na5) b = Some nb4). rewrite nth_upd_ne; auto. }
  assert (Hx5 : repr (tree t5) x (Some b)) by (apply Hfr5; auto; intros Hin; nd Hnd0 a).
  assert (Hy5 : repr (tree t5) y (Some a)) by (apply Hfr5; auto; intros Hin; nd Hnd0 a).
  assert (Ho5 : repr (tree t5) o (Some a)) by (apply Hfr5; auto; intros Hin; nd Hnd0 a).
  assert (Hao : repr (tree t5) (B o a y) (Some b)).
  { exists na5. cbn. ssplit; auto. }
  unfold x in Hx5. rewrite (update_node_height_same _ _ _ _ _ Hx5). cbn [bind]. fold x in Hx5.
  rewrite (update_node_height_ok t5 b nb4 (B o a y) x (Some b) (Some b) Hnb5); auto.
  eexists; split; [reflexivity|]. cbn [root tree].
  assert (Hltb5 : b < length (tree t5)) by (eapply nth_error_lt; eauto).
  ssplit.
  - exact (eq_trans Hroot3 Hroot1).
  - exists (with_height (1 + Z.max (ht (B o a y)) (ht x)) nb4). rewrite nth_upd_eq by auto.
    cbn [right_node left_node parent height with_height with_left with_parent nb4]. ssplit; auto.
    + eapply repr_frame; [|exact Hao]. intros z Hz. apply nth_upd_ne. intros ->. nd Hnd0 z.
    + eapply repr_frame; [|exact Hx5]. intros z Hz. apply nth_upd_ne. intros ->. nd Hnd0 z.
  - eapply crepr_frame; [|exact Hc3]. intros z Hz. rewrite nth_upd_ne by (intros ->; nd Hnd0 z).
    cbn. rewrite !nth_upd_ne; auto; intros ->; nd Hnd0 z.
  - cbn. rewrite !upd_length. rewrite Hlen3. cbn. rewrite upd_length. auto.
Qed.

Lemma double_core (pfirst : bool) t c h P nP Q nQ k nk u y1 y2 v :
  nth_error (tree t) P = Some nP -> left_node nP = rt u ->
  nth_error (tree t) Q = Some nQ -> right_node nQ = rt v ->
  nth_error (tree t) k = Some nk -> left_node nk = rt y1 -> right_node nk = rt y2 -> parent nk = cpar c ->
  repr (tree t) u (Some P) -> repr (tree t) v (Some Q) -> repr (tree t) y1 (Some k) -> repr (tree t) y2 (Some k) ->
  crepr (tree t) c (Some k) h ->
  NoDup (ino (B (B u P y1) k (B y2 Q v)) ++ celems c) ->
  exists t',
    (let* t := set_right_child t P (rt y1) in
     let* nc := index (tree t) k in
     let* t := set_left_child t Q (right_node nc) in
     let* t := set_right_child t k (Some Q) in
     let* t := set_left_child t k (Some P) in
     let* t := update_node_height t (if pfirst then P else Q) in
     let* t := update_node_height t (if pfirst then Q else P) in
     update_node_height t k) = Ok t'
    /\ root t' = root t
    /\ repr (tree t') (B (B u P y1) k (B y2 Q v)) (cpar c) /\ crepr (tree t') c (Some k) h
    /\ length (tree t') = length (tree t).
Proof.
  intros HP HlP HQ HrQ Hk Hlk Hrk Hpk Hu Hv Hy1 Hy2 Hc Hnd.
  assert (Hnd0 : forall z, cnt z (ino (B (B u P y1) k (B y2 Q v)) ++ celems c) <= 1) by (apply NoDup_cnt; auto).
  assert (HPQ : P <> Q) by (intros ->; nd Hnd0 Q).
  assert (HPk : P <> k) by (intros ->; nd Hnd0 k).
  assert (HQk : Q <> k) by (intros ->; nd Hnd0 k).
  destruct (set_child_spec false t P nP y1 (Some k)) as (t1 & Ht1 & Hroot1 & HP1 & Hy11 & Hf1 & Hlen1); auto.
  { apply NoDup_cnt. intros z. specialize (Hnd0 z). cnt_norm. lia. }
  { intros Hin. nd Hnd0 P. }
  rewrite Ht1; cbn [bind].
  assert (Hk1 : nth_error (tree t1) k = Some nk).
  { rewrite Hf1; auto. intros Hin. nd Hnd0 k. }
  assert (HQ1 : nth_error (tree t1) Q = Some nQ).
  { rewrite Hf1; auto. intros Hin. nd Hnd0 Q. }
  assert (Hfr1 : forall s p, (forall z, In z (ino s) -> z <> P /\ ~ In z (ino y1)) -> repr (tree t) s p -> repr (tree t1) s p).
  { intros s p Hd. apply repr_frame. intros z Hz. apply Hf1; apply Hd; auto. }
  assert (Hu1 : repr (tree t1) u (Some P)).
  { apply Hfr1; auto. intros z Hz. split; [intros ->; nd Hnd0 P|intros Hz'; nd Hnd0 z]. }
  assert (Hv1 : repr (tree t1) v (Some Q)).
  { apply Hfr1; auto. intros z Hz. split; [intros ->; nd Hnd0 P|intros Hz'; nd Hnd0 z]. }
  assert (Hy21 : repr (tree t1) y2 (Some k)).
  { apply Hfr1; auto. intros z Hz. split; [intros ->; nd Hnd0 P|intros Hz'; nd Hnd0 z]. }
  assert (Hc1 : crepr (tree t1) c (Some k) h).
  { eapply crepr_frame; [|exact Hc]. intros z Hz. apply Hf1; [intros ->; nd Hnd0 P|intros Hz'; nd Hnd0 z]. }
  clear Hfr1.
  rewrite (index_ok _ _ _ Hk1); cbn [bind]. rewrite Hrk.
  destruct (set_child_spec true t1 Q nQ y2 (Some k)) as (t2 & Ht2 & Hroot2 & HQ2 & Hy22 & Hf2 & Hlen2); auto.
  { apply NoDup_cnt. intros z. specialize (Hnd0 z). cnt_norm. lia. }
  { intros Hin. nd Hnd0 Q. }
  rewrite Ht2; cbn [bind].
  assert (Hk2 : nth_error (tree t2) k = Some nk).
  { rewrite Hf2; auto. intros Hin. nd Hnd0 k. }
  assert (HP2 : nth_error (tree t2) P = Some (with_right (rt y1) nP)).
  { rewrite Hf2; auto. intros Hin. nd Hnd0 P. }
  assert (Hfr2 : forall s p, (forall z, In z (ino s) -> z <> Q /\ ~ In z (ino y2)) -> repr (tree t1) s p -> repr (tree t2) s p).
  { intros s p Hd. apply repr_frame. intros z Hz. apply Hf2; apply Hd; auto. }
  assert (Hu2 : repr (tree t2) u (Some P)).
  { apply Hfr2; auto. intros z Hz. split; [intros ->; nd Hnd0 Q|intros Hz'; nd Hnd0 z]. }
  assert (Hv2 : repr (tree t2) v (Some Q)).
  { apply Hfr2; auto. intros z Hz. split; [intros ->; nd Hnd0 Q|intros Hz'; nd Hnd0 z]. }
  assert (Hy12 : repr (tree t2) y1 (Some P)).
  { apply Hfr2; auto. intros z Hz. split; [intros ->; nd Hnd0 Q|intros Hz'; nd Hnd0 z]. }
  assert (Hc2 : crepr (tree t2) c (Some k) h).
  { eapply crepr_frame; [|exact Hc1]. intros z Hz. apply Hf2; [intros ->; nd Hnd0 Q|intros Hz'; nd Hnd0 z]. }
  clear Hfr2.
  assert (Hltk : k < length (tree t2)) by (eapply nth_error_lt; eauto).
  assert (HltP : P < length (tree t2)) by (eapply nth_error_lt; eauto).
  assert (HltQ : Q < length (tree t2)) by (eapply nth_error_lt; eauto).
  unfold set_right_child. rewrite (modify_ok _ _ _ _ Hk2); cbn [bind].
  rewrite (modify_ok _ Q _ (with_left (rt y2) nQ)) by (cbn; rewrite nth_upd_ne; auto).
  cbn [bind tree root].
  unfold set_left_child. rewrite (modify_ok _ k _ (with_right (Some Q) nk))
    by (cbn; rewrite nth_upd_ne by auto; apply nth_upd_eq; auto).
  cbn [bind tree root].
  rewrite (modify_ok _ P _ (with_right (rt y1) nP)) by (cbn; rewrite !nth_upd_ne; auto).
  cbn [bind tree root].
  set (Q3 := with_parent (Some k) (with_left (rt y2) nQ)).
  set (P3 := with_parent (Some k) (with_right (rt y1) nP)).
  set (k3 := with_left (Some P) (with_right (Some Q) nk)).
  set (t3 := mkAvl _ _).
  assert (HP3 : nth_error (tree t3) P = Some P3).
  { cbn. apply nth_upd_eq. rewrite !upd_length; auto. }
  assert (HQ3 : nth_error (tree t3) Q = Some Q3).
  { cbn. rewrite !(nth_upd_ne _ P), !(nth_upd_ne _ k) by auto. apply nth_upd_eq. rewrite !upd_length; auto. }
  assert (Hk3 : nth_error (tree t3) k = Some k3).
  { cbn. rewrite !(nth_upd_ne _ P) by auto. apply nth_upd_eq. rewrite !upd_length; auto. }
  assert (Hf3 : forall z, z <> P -> z <> Q -> z <> k -> nth_error (tree t3) z = nth_error (tree t2) z).
  { intros z H1 H2 H3. cbn. rewrite !nth_upd_ne; auto. }
  assert (Hfr3 : forall s p, ~ In P (ino s) -> ~ In Q (ino s) -> ~ In k (ino s) -> repr (tree t2) s p -> repr (tree t3) s p).
  { intros s p H1 H2 H3. apply repr_frame. intros z Hz. apply Hf3; intros ->; auto. }
  assert (Hlen3 : length (tree t3) = length (tree t2)) by (cbn; rewrite !upd_length; auto).
  assert (Hroot3 : root t3 = root t2) by reflexivity.
  assert (Hu3 : repr (tree t3) u (Some P)) by (apply Hfr3; auto; intros Hin; [nd Hnd0 P|nd Hnd0 Q|nd Hnd0 k]).
  assert (Hv3 : repr (tree t3) v (Some Q)) by (apply Hfr3; auto; intros Hin; [nd Hnd0 P|nd Hnd0 Q|nd Hnd0 k]).
  assert (Hy13 : repr (tree t3) y1 (Some P)) by (apply Hfr3; auto; intros Hin; [nd Hnd0 P|nd Hnd0 Q|nd Hnd0 k]).
  assert (Hy23 : repr (tree t3) y2 (Some Q)) by (apply Hfr3; auto; intros Hin; [nd Hnd0 P|nd Hnd0 Q|nd Hnd0 k]).
  assert (Hc3 : crepr (tree t3) c (Some k) h).
  { eapply crepr_frame; [|exact Hc2]. intros z Hz. apply Hf3; intros ->; [nd Hnd0 P|nd Hnd0 Q|nd Hnd0 k]. }
  clearbody t3. clear Hfr3 Hf3.
  set (P4 := with_height (1 + Z.max (ht u) (ht y1)) P3).
  set (Q4 := with_height (1 + Z.max (ht y2) (ht v)) Q3).
  (* update the two children, in either order *)
  assert (Hupd : exists t4,
    (let* t := update_node_height t3 (if pfirst then P else Q) in
     update_node_height t (if pfirst then Q else P)) = Ok t4
    /\ root t4 = root t3 /\ length (tree t4) = length (tree t3)
    /\ nth_error (tree t4) P = Some P4 /\ nth_error (tree t4) Q = Some Q4
    /\ forall z, z <> P -> z <> Q -> nth_error (tree t4) z = nth_error (tree t3) z).
  { assert (HltP3 : P < length (tree t3)) by (eapply nth_error_lt; eauto).
    assert (HltQ3 : Q < length (tree t3)) by (eapply nth_error_lt; eauto).
    destruct pfirst.
    - rewrite (update_node_height_ok t3 P P3 u y1 (Some P) (Some P) HP3); auto. cbn [bind].
      rewrite (update_node_height_ok _ Q Q3 y2 v (Some Q) (Some Q)); cbn [tree root]; auto.
      + eexists; split; [reflexivity|]. cbn [tree root]. ssplit; auto.
        * rewrite !upd_length; auto.
        * rewrite nth_upd_ne by auto. apply nth_upd_eq; auto.
        * apply nth_upd_eq. rewrite upd_length; auto.
        * intros z H1 H2. rewrite !nth_upd_ne; auto.
      + rewrite nth_upd_ne; auto.
      + eapply repr_frame; [|exact Hy23]. intros z Hz. apply nth_upd_ne. intros ->. nd Hnd0 z.
      + eapply repr_frame; [|exact Hv3]. intros z Hz. apply nth_upd_ne. intros ->. nd Hnd0 z.
    - rewrite (update_node_height_ok t3 Q Q3 y2 v (Some Q) (Some Q) HQ3); auto. cbn [bind].
      rewrite (update_node_height_ok _ P P3 u y1 (Some P) (Some P)); cbn [tree root]; auto.
      + eexists; split; [reflexivity|]. cbn [tree root]. ssplit; auto.
        * rewrite !upd_length; auto.
        * apply nth_upd_eq. rewrite upd_length; auto.
        * rewrite nth_upd_ne by auto. apply nth_upd_eq; auto.
        * intros z H1 H2. rewrite !nth_upd_ne; auto.
      + rewrite nth_upd_ne; auto.
      + eapply repr_frame; [|exact Hu3]. intros z Hz. apply nth_upd_ne. intros ->. nd Hnd0 z.
      + eapply repr_frame; [|exact Hy13]. intros z Hz. apply nth_upd_ne. intros ->. nd Hnd0 z. }
  destruct Hupd as (t4 & Ht4 & Hroot4 & Hlen4 & HP4 & HQ4 & Hf4).
  match goal with |- context [bind (update_node_height t3 _) (fun x => bind _ _)] => idtac end.
  assert (Hassoc : forall (K : avl -> M avl),
    (let* t := update_node_height t3 (if pfirst then P else Q) in
     let* t := update_node_height t (if pfirst then Q else P) in K t) = K t4).
  { intros K. apply bind_ok in Ht4. destruct Ht4 as (t5 & -> & H5). cbn. rewrite H5. auto. }
  rewrite Hassoc. clear Hassoc Ht4.
  assert (Hk4 : nth_error (tree t4) k = Some k3) by (rewrite Hf4; auto).
  assert (Hu4 : repr (tree t4) u (Some P)).
  { eapply repr_frame; [|exact Hu3]. intros z Hz. apply Hf4; intros ->; nd Hnd0 z || nd Hnd0 P || nd Hnd0 Q. }
  assert (Hy14 : repr (tree t4) y1 (Some P)).
  { eapply repr_frame; [|exact Hy13]. intros z Hz. apply Hf4; intros ->; nd Hnd0 P || nd Hnd0 Q. }
  assert (Hy24 : repr (tree t4) y2 (Some Q)).
  { eapply repr_frame; [|exact Hy23]. intros z Hz. apply Hf4; intros ->; nd Hnd0 P || nd Hnd0 Q. }
  assert (Hv4 : repr (tree t4) v (Some Q)).
  { eapply repr_frame; [|exact Hv3]. intros z Hz. apply Hf4; intros ->; nd Hnd0 P || nd Hnd0 Q. }
  assert (HL : repr (tree t4) (B u P y1) (Some k)) by (exists P4; cbn; ssplit; auto).
  assert (HR : repr (tree t4) (B y2 Q v) (Some k)) by (exists Q4; cbn; ssplit; auto).
  rewrite (update_node_height_ok t4 k k3 (B u P y1) (B y2 Q v) (Some k) (Some k) Hk4); auto.
  eexists; split; [reflexivity|]. cbn [root tree].
  ssplit.
  - congruence.
  - eexists. rewrite nth_upd_eq by (eapply nth_error_lt; eauto). split; [reflexivity|].
    cbn [left_node right_node parent height with_height with_left with_right with_parent k3]. ssplit; auto.
    + eapply repr_frame; [|exact HL]. intros z Hz. apply nth_upd_ne. intros ->. nd Hnd0 z.
    + eapply repr_frame; [|exact HR]. intros z Hz. apply nth_upd_ne. intros ->. nd Hnd0 z.
  - eapply crepr_frame; [|exact Hc3]. intros z Hz. rewrite nth_upd_ne by (intros ->; nd Hnd0 z).
    apply Hf4; intros ->; nd Hnd0 P || nd Hnd0 Q.
  - rewrite upd_length. congruence.
Qed.

Lemma lr_rotate_spec t c h x b y1 k y2 a o n :
  nth_error (tree t) a = Some n -> left_node n = Some b -> right_node n = rt o -> parent n = cpar c ->
  repr (tree t) (B x b (B y1 k y2)) (Some a) -> repr (tree t) o (Some a) ->
  root t = rootof c (Some a) -> crepr (tree t) c (Some a) h ->
  NoDup (ino (B (B x b (B y1 k y2)) a o) ++ celems c) ->
  exists t', lr_rotate t a b k = Ok t' /\ root t' = rootof c (Some k)
    /\ repr (tree t') (B (B x b y1) k (B y2 a o)) (cpar c) /\ crepr (tree t') c (Some k) h
    /\ length (tree t') = length (tree t).
Proof.
  intros Hn Hl Hr Hp Hs Ho Hroot Hc Hnd.
  assert (Hnd0 : forall z, cnt z (ino (B (B x b (B y1 k y2)) a o) ++ celems c) <= 1) by (apply NoDup_cnt; auto).
  destruct Hs as (nb & Hnb & Hxb & Hyb & Hpb & Hhb & Hx & Hy).
  destruct Hy as (nk & Hnk & Hlk & Hrk & Hpk & Hhk & Hy1 & Hy2).
  assert (Hab : a <> b) by (intros ->; nd Hnd0 b).
  assert (Hak : a <> k) by (intros ->; nd Hnd0 k).
  assert (Hbk : b <> k) by (intros ->; nd Hnd0 k).
  unfold lr_rotate. rewrite (index_ok _ _ _ Hn); cbn [bind]. rewrite Hl, opt_is_refl; cbn [rassert bind].
  rewrite (index_ok _ _ _ Hnb); cbn [bind]. rewrite Hyb; cbn [rt]; rewrite opt_is_refl; cbn [rassert bind].
  destruct (set_parent_ref_spec t c a n k h) as (t1 & Ht1 & Hroot1 & Hc1 & Hf1 & Hlen1); auto.
  { apply NoDup_cnt. intros z. specialize (Hnd0 z). cnt_norm. lia. }
  { intros Hin. nd Hnd0 a. }
  rewrite Ht1; cbn [bind].
  assert (Hk1 : nth_error (tree t1) k = Some nk).
  { rewrite Hf1; auto. intros Hin. nd Hnd0 k. }
  rewrite (modify_ok _ _ _ _ Hk1); cbn [bind tree root].
  rewrite (index_ok _ _ (with_parent (parent n) nk)) by (apply nth_upd_eq; eapply nth_error_lt; eauto).
  cbn [bind left_node right_node with_parent]. rewrite Hlk.
  set (t2 := mkAvl (root t1) (upd (tree t1) k (with_parent (parent n) nk))).
  assert (Hfr2 : forall s p, ~ In k (ino s) -> (forall z, In z (ino s) -> ~ In z (celems c)) -> repr (tree t) s p -> repr (tree t2) s p).
  { intros s p H1 H2. apply repr_frame. intros z Hz. cbn. rewrite nth_upd_ne by (intros ->; auto). apply Hf1; auto. }
  destruct (double_core false t2 c h b nb a n k (with_parent (parent n) nk) x y1 y2 o)
    as (t' & Ht' & Hroot' & Hrep' & Hc' & Hlen'); auto.
  { cbn. rewrite nth_upd_ne by auto. rewrite Hf1; auto. intros Hin; nd Hnd0 b. }
  { cbn. rewrite nth_upd_ne by auto. rewrite Hf1; auto. intros Hin; nd Hnd0 a. }
  { cbn. apply nth_upd_eq. eapply nth_error_lt; eauto. }
  { apply Hfr2; auto. intros Hin; nd Hnd0 k. intros z H1 H2; nd Hnd0 z. }
  { apply Hfr2; auto. intros Hin; nd Hnd0 k. intros z H1 H2; nd Hnd0 z. }
  { apply Hfr2; auto. intros Hin; nd Hnd0 k. intros z H1 H2; nd Hnd0 z. }
  { apply Hfr2; auto. intros Hin; nd Hnd0 k. intros z H1 H2; nd Hnd0 z. }
  { eapply crepr_frame; [|exact Hc1]. intros z Hz. cbn. apply nth_upd_ne. intros ->. nd Hnd0 z. }
  { apply NoDup_cnt. intros z. specialize (Hnd0 z). repeat (progress cnt_norm). lia. }
  exists t'. split; [exact Ht'|]. ssplit; auto.
  - rewrite Hroot'. auto.
  - rewrite Hlen'. cbn. rewrite upd_length. auto.
Qed.

Lemma rl_rotate_spec t c h x b y1 k y2 a o n :
  nth_error (tree t) a = Some n -> right_node n = Some b -> left_node n = rt o -> parent n = cpar c ->
  repr (tree t) (B (B y1 k y2) b x) (Some a) -> repr (tree t) o (Some a) ->
  root t = rootof c (Some a) -> crepr (tree t) c (Some a) h ->
  NoDup (ino (B o a (B (B y1 k y2) b x)) ++ celems c) ->
  exists t', rl_rotate t a b k = Ok t' /\ root t' = rootof c (Some k)
    /\ repr (tree t') (B (B o a y1) k (B y2 b x)) (cpar c) /\ crepr (tree t') c (Some k) h
    /\ length (tree t') = length (tree t).
Proof.
  intros Hn Hl Hr Hp Hs Ho Hroot Hc Hnd.
  assert (Hnd0 : forall z, cnt z (ino (B o a (B (B y1 k y2) b x)) ++ celems c) <= 1) by (apply NoDup_cnt; auto).
  destruct Hs as (nb & Hnb & Hyb & Hxb & Hpb & Hhb & Hy & Hx).
  destruct Hy as (nk & Hnk & Hlk & Hrk & Hpk & Hhk & Hy1 & Hy2).
  assert (Hab : a <> b) by (intros ->; nd Hnd0 b).
  assert (Hak : a <> k) by (intros ->; nd Hnd0 k).
  assert (Hbk : b <> k) by (intros ->; nd Hnd0 k).
  unfold rl_rotate. rewrite (index_ok _ _ _ Hn); cbn [bind]. rewrite Hl, opt_is_refl; cbn [rassert bind].
  rewrite (index_ok _ _ _ Hnb); cbn [bind]. rewrite Hyb; cbn [rt]; rewrite opt_is_refl; cbn [rassert bind].
  destruct (set_parent_ref_spec t c a n k h) as (t1 & Ht1 & Hroot1 & Hc1 & Hf1 & Hlen1); auto.
  { apply NoDup_cnt. intros z. specialize (Hnd0 z). cnt_norm. lia. }
  { intros Hin. nd Hnd0 a. }
  rewrite Ht1; cbn [bind].
  assert (Hk1 : nth_error (tree t1) k = Some nk).
  { rewrite Hf1; auto. intros Hin. nd Hnd0 k. }
  rewrite (modify_ok _ _ _ _ Hk1); cbn [bind tree root].
  rewrite (index_ok _ _ (with_parent (parent n) nk)) by (apply nth_upd_eq; eapply nth_error_lt; eauto).
  cbn [bind left_node right_node with_parent]. rewrite Hlk.
  set (t2 := mkAvl (root t1) (upd (tree t1) k (with_parent (parent n) nk))).
  assert (Hfr2 : forall s p, ~ In k (ino s) -> (forall z, In z (ino s) -> ~ In z (celems c)) -> repr (tree t) s p -> repr (tree t2) s p).
  { intros s p H1 H2. apply repr_frame. intros z Hz. cbn. rewrite nth_upd_ne by (intros ->; auto). apply Hf1; auto. }
  destruct (double_core true t2 c h a n b nb k (with_parent (parent n) nk) o y1 y2 x)
    as (t' & Ht' & Hroot' & Hrep' & Hc' & Hlen'); auto.
  { cbn. rewrite nth_upd_ne by auto. rewrite Hf1; auto. intros Hin; nd Hnd0 a. }
  { cbn. rewrite nth_upd_ne by auto. rewrite Hf1; auto. intros Hin; nd Hnd0 b. }
  { cbn. apply nth_upd_eq. eapply nth_error_lt; eauto. }
  { apply Hfr2; auto. intros Hin; nd Hnd0 k. intros z H1 H2; nd Hnd0 z. }
  { apply Hfr2; auto. intros Hin; nd Hnd0 k. intros z H1 H2; nd Hnd0 z. }
  { apply Hfr2; auto. intros Hin; nd Hnd0 k. intros z H1 H2; nd Hnd0 z. }
  { apply Hfr2; auto. intros Hin; nd Hnd0 k. intros z H1 H2; nd Hnd0 z. }
  { eapply crepr_frame; [|exact Hc1]. intros z Hz. cbn. apply nth_upd_ne. intros ->. nd Hnd0 z. }
  { apply NoDup_cnt. intros z. specialize (Hnd0 z). repeat (progress cnt_norm). lia. }
  exists t'. split; [exact Ht'|]. ssplit; auto.
  - rewrite Hroot'. auto.
  - rewrite Hlen'. cbn. rewrite upd_length. auto.
Qed.

End P.
