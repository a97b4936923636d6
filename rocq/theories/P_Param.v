(** The size of a directory table depends on the names only: insertion into the
    index treats its elements uniformly. *)
From Verif Require Import M_Base M_Util M_Layout M_Avl M_Sector M_Dirtab M_Img.
From Verif Require Import S_Avl S_Codec S_Table S_Read S_Img P_Base.
From Coq Require Import Init.Byte Lia.

Definition rr {E A B} (R : A -> B -> Prop) (x : res E A) (y : res E B) : Prop :=
  match x, y with
  | Ok a, Ok b => R a b
  | Err e, Err e' => e = e'
  | Panic p, Panic q => p = q
  | OutOfFuel, OutOfFuel => True
  | _, _ => False
  end.

Lemma rr_bind {E A B C D} (R : A -> B -> Prop) (S : C -> D -> Prop) (x : res E A) y k h :
  rr R x y -> (forall a b, R a b -> rr S (k a) (h b)) -> rr S (bind x k) (bind y h).
Proof. destruct x, y; cbn; intros H1 H2; try contradiction; auto. Qed.

Section Param.
Context {T S : Type}.
Variables (cmp : T -> T -> comparison) (cmp' : S -> S -> comparison).
Variable R : T -> S -> Prop.
Hypothesis Hcmp : forall a a' b b', R a a' -> R b b' -> cmp a b = cmp' a' b'.

Definition nrel (n : node T) (n' : node S) : Prop :=
  left_node n = left_node n' /\ right_node n = right_node n' /\ parent n = parent n' /\ height n = height n' /\ R (data n) (data n').
Definition trel (t : avl T) (t' : avl S) : Prop := root t = root t' /\ Forall2 nrel (tree t) (tree t').

Lemma trel_length t t' : trel t t' -> length (tree t) = length (tree t').
Proof. intros (_ & H). induction H; cbn; auto. Qed.

Lemma index_rel t t' i : trel t t' -> rr nrel (@index Empty_set _ (tree t) i) (index (tree t') i).
Proof.
  intros (_ & H). unfold index. revert i. induction H as [|n n' l l' H1 H2 IH]; intros [|i]; cbn; auto.
Qed.

Lemma upd_rel l l' i n n' : Forall2 nrel l l' -> nrel n n' -> Forall2 nrel (upd l i n) (upd l' i n').
Proof. intros H Hn. revert i. induction H; intros [|i]; cbn; constructor; auto. Qed.

Lemma modify_rel t t' i f g : trel t t' -> (forall n n', nrel n n' -> nrel (f n) (g n')) -> rr trel (modify t i f) (modify t' i g).
Proof.
  intros H Hf. unfold modify. eapply rr_bind; [apply index_rel; exact H|]. intros n n' Hn. split; [apply H|]. cbn. apply upd_rel; [apply H|auto].
Qed.

Lemma with_left_rel v n n' : nrel n n' -> nrel (with_left v n) (with_left v n'). Proof. intros (?&?&?&?&?). split; cbn; auto. Qed.
Lemma with_right_rel v n n' : nrel n n' -> nrel (with_right v n) (with_right v n'). Proof. intros (?&?&?&?&?). repeat split; cbn; auto. Qed.
Lemma with_parent_rel v n n' : nrel n n' -> nrel (with_parent v n) (with_parent v n'). Proof. intros (?&?&?&?&?). repeat split; cbn; auto. Qed.
Lemma with_height_rel v n n' : nrel n n' -> nrel (with_height v n) (with_height v n'). Proof. intros (?&?&?&?&?). repeat split; cbn; auto. Qed.

Lemma parent_direction_rel t t' i : trel t t' -> rr eq (parent_direction t i) (parent_direction t' i).
Proof.
  intros H. unfold parent_direction. eapply rr_bind; [apply index_rel; exact H|]. intros n n' (E1 & E2 & E3 & E4 & E5). rewrite E3.
  destruct (parent n') as [p|]; [|reflexivity]. eapply rr_bind; [apply index_rel; exact H|]. intros q q' (F1 & F2 & F3 & F4 & F5).
  rewrite F1, F2. destruct (opt_is (left_node q') i); [reflexivity|]. destruct (opt_is (right_node q') i); reflexivity.
Qed.

Lemma parent_node_ref_rel t t' i : trel t t' -> rr eq (parent_node_ref t i) (parent_node_ref t' i).
Proof.
  intros H. unfold parent_node_ref. eapply rr_bind; [apply parent_direction_rel; exact H|]. intros a b ->.
  destruct b as [[p [| |]]|]; reflexivity.
Qed.

Lemma set_parent_ref_rel t t' i v : trel t t' -> rr trel (set_parent_ref t i v) (set_parent_ref t' i v).
Proof.
  intros H. unfold set_parent_ref. eapply rr_bind; [apply parent_node_ref_rel; exact H|]. intros a b ->.
  destruct b; cbn [store_ref]; [split; [reflexivity|apply H]|apply modify_rel; auto using with_left_rel|apply modify_rel; auto using with_right_rel].
Qed.

Lemma child_height_rel t t' o : trel t t' -> rr eq (child_height t o) (child_height t' o).
Proof.
  intros H. destruct o as [i|]; cbn [child_height]; [|reflexivity]. eapply rr_bind; [apply index_rel; exact H|]. intros n n' (E1 & E2 & E3 & E4 & E5). exact E4.
Qed.

Lemma update_node_height_rel t t' i : trel t t' -> rr trel (update_node_height t i) (update_node_height t' i).
Proof.
  intros H. unfold update_node_height. eapply rr_bind; [apply index_rel; exact H|]. intros n n' (E1 & E2 & E3 & E4 & E5). rewrite E1, E2.
  eapply rr_bind; [apply child_height_rel; exact H|]. intros a b ->. eapply rr_bind; [apply child_height_rel; exact H|]. intros a c ->.
  apply modify_rel; auto using with_height_rel.
Qed.

Lemma balance_factor_rel t t' i : trel t t' -> rr eq (balance_factor t i) (balance_factor t' i).
Proof.
  intros H. unfold balance_factor. eapply rr_bind; [apply index_rel; exact H|]. intros n n' (E1 & E2 & E3 & E4 & E5). rewrite E1, E2.
  eapply rr_bind; [apply child_height_rel; exact H|]. intros a b ->. eapply rr_bind; [apply child_height_rel; exact H|]. intros a c ->. reflexivity.
Qed.

Lemma set_left_child_rel t t' i c : trel t t' -> rr trel (set_left_child t i c) (set_left_child t' i c).
Proof.
  intros H. unfold set_left_child. eapply rr_bind; [apply modify_rel; [exact H|auto using with_left_rel]|]. intros a b Hab.
  destruct c; [apply modify_rel; auto using with_parent_rel|exact Hab].
Qed.
Lemma set_right_child_rel t t' i c : trel t t' -> rr trel (set_right_child t i c) (set_right_child t' i c).
Proof.
  intros H. unfold set_right_child. eapply rr_bind; [apply modify_rel; [exact H|auto using with_right_rel]|]. intros a b Hab.
  destruct c; [apply modify_rel; auto using with_parent_rel|exact Hab].
Qed.

Ltac rstep :=
  match goal with
  | |- rr _ (bind (index (tree ?t) ?i) _) _ => eapply rr_bind; [apply index_rel; eassumption|]; let n := fresh "n" in let n' := fresh "n'" in
       intros n n' (?E1 & ?E2 & ?E3 & ?E4 & ?E5)
  | |- rr _ (bind (rassert ?b) _) (bind (rassert ?c) _) => replace b with c by congruence; eapply rr_bind with (R := eq); [destruct c; reflexivity|]; intros ? ? ->
  | |- rr _ (bind (set_parent_ref _ _ _) _) _ => eapply rr_bind; [apply set_parent_ref_rel; eassumption|]; intros ? ? ?
  | |- rr _ (bind (modify _ _ (with_parent ?a)) _) (bind (modify _ _ (with_parent ?b)) _) => replace a with b by congruence; eapply rr_bind; [apply modify_rel; [eassumption|auto using with_parent_rel]|]; intros ? ? ?
  | |- rr _ (bind (set_left_child _ _ ?a) _) (bind (set_left_child _ _ ?b) _) => replace a with b by congruence; eapply rr_bind; [apply set_left_child_rel; eassumption|]; intros ? ? ?
  | |- rr _ (bind (set_right_child _ _ ?a) _) (bind (set_right_child _ _ ?b) _) => replace a with b by congruence; eapply rr_bind; [apply set_right_child_rel; eassumption|]; intros ? ? ?
  | |- rr _ (bind (update_node_height _ _) _) _ => eapply rr_bind; [apply update_node_height_rel; eassumption|]; intros ? ? ?
  | |- rr _ (update_node_height _ _) _ => apply update_node_height_rel; eassumption
  end; cbv zeta.

Lemma l_rotate_rel t t' a b c : trel t t' -> rr trel (l_rotate t a b c) (l_rotate t' a b c).
Proof. intros H. unfold l_rotate. repeat rstep. Qed.
Lemma r_rotate_rel t t' a b c : trel t t' -> rr trel (r_rotate t a b c) (r_rotate t' a b c).
Proof. intros H. unfold r_rotate. repeat rstep. Qed.
Lemma rl_rotate_rel t t' a b c : trel t t' -> rr trel (rl_rotate t a b c) (rl_rotate t' a b c).
Proof. intros H. unfold rl_rotate. repeat rstep. Qed.
Lemma lr_rotate_rel t t' a b c : trel t t' -> rr trel (lr_rotate t a b c) (lr_rotate t' a b c).
Proof. intros H. unfold lr_rotate. repeat rstep. Qed.

Lemma rebalance_loop_rel fuel : forall t t' cur prev, trel t t' -> rr trel (rebalance_loop fuel t cur prev) (rebalance_loop fuel t' cur prev).
Proof.
  induction fuel as [|fuel IH]; intros t t' [[idx d]|] prev H; cbn [rebalance_loop]; auto; try exact I.
  eapply rr_bind; [apply update_node_height_rel; exact H|]. intros u u' Hu.
  eapply rr_bind; [apply balance_factor_rel; exact Hu|]. intros a bf ->. eapply rr_bind with (R := trel).
  - destruct ((-1 <=? bf) && (bf <=? 1))%Z; [exact Hu|].
    eapply rr_bind with (R := eq); [destruct prev; reflexivity|]. intros [nb pd] ? <-.
    rstep. assert (E : child_from_direction n pd = child_from_direction n' pd) by (destruct pd; cbn; auto). rewrite E.
    eapply rr_bind with (R := eq); [destruct (child_from_direction n' pd); reflexivity|]. intros nc ? <-.
    destruct d, pd; cbn [perform_rotation]; auto using l_rotate_rel, r_rotate_rel, rl_rotate_rel, lr_rotate_rel; reflexivity.
  - intros v v' Hv. eapply rr_bind; [apply parent_direction_rel; exact Hv|]. intros a nx ->. apply IH. exact Hv.
Qed.

Lemma nth_rel t t' i : trel t t' -> match nth_error (tree t) i, nth_error (tree t') i with Some n, Some n' => nrel n n' | None, None => True | _, _ => False end.
Proof. intros (_ & H). revert i. induction H as [|n n' l l' H1 H2 IH]; intros [|i]; cbn; auto. apply IH. Qed.

Lemma rebalance_rel fuel t t' i : trel t t' -> rr trel (rebalance fuel t i) (rebalance fuel t' i).
Proof.
  intros H. unfold rebalance. eapply rr_bind with (R := eq).
  - pose proof (nth_rel t t' i H) as Hn. destruct (nth_error (tree t) i) as [n|], (nth_error (tree t') i) as [n'|]; try contradiction; [|reflexivity].
    destruct Hn as (-> & -> & _). destruct (left_node n'), (right_node n'); reflexivity.
  - intros _ _ _. apply rebalance_loop_rel. exact H.
Qed.

Lemma insert_descend_rel fuel : forall t t' x x' free cur, trel t t' -> R x x' ->
  rr (fun a b => match a, b with Some (u, p), Some (u', p') => trel u u' /\ p = p' | None, None => True | _, _ => False end)
    (insert_descend cmp fuel t x free cur) (insert_descend cmp' fuel t' x' free cur).
Proof.
  induction fuel as [|fuel IH]; intros t t' x x' free cur H Hx; cbn [insert_descend]; [exact I|].
  rstep. rewrite (Hcmp _ _ _ _ Hx E5). destruct (cmp' x' (data n')).
  - exact I.
  - rewrite E1. destruct (left_node n'); [apply IH; auto|]. eapply rr_bind; [apply modify_rel; [exact H|auto using with_left_rel]|].
    intros u u' Hu. cbn. auto.
  - rewrite E2. destruct (right_node n'); [apply IH; auto|]. eapply rr_bind; [apply modify_rel; [exact H|auto using with_right_rel]|].
    intros u u' Hu. cbn. auto.
Qed.

Lemma allocate_rel t t' x x' p : trel t t' -> R x x' -> trel (fst (allocate t x p)) (fst (allocate t' x' p)) /\ snd (allocate t x p) = snd (allocate t' x' p).
Proof.
  intros H Hx. unfold allocate. cbn [fst snd]. rewrite !app_length, (trel_length _ _ H). split; [|reflexivity].
  split; [apply H|]. cbn. apply Forall2_app; [apply H|]. constructor; [|constructor]. repeat split; auto.
Qed.

Lemma insert_rel t t' x x' : trel t t' -> R x x' ->
  rr (fun a b => trel (fst a) (fst b) /\ snd a = snd b) (insert cmp t x) (insert cmp' t' x').
Proof.
  intros H Hx. unfold insert. rewrite (trel_length _ _ H). rewrite (proj1 H). destruct (root t') as [cur|].
  - eapply rr_bind; [apply insert_descend_rel; eauto|]. intros [[u p]|] [[u' p']|] Hu; try contradiction.
    + destruct Hu as (Hu & <-). pose proof (allocate_rel u u' x x' (Some p) Hu Hx) as (A & B).
      destruct (allocate u x (Some p)) as [v i], (allocate u' x' (Some p)) as [v' i']. cbn [fst snd] in *. subst i'.
      eapply rr_bind with (R := eq); [destruct (Nat.eqb _ i); reflexivity|]. intros _ _ _.
      eapply rr_bind; [apply rebalance_rel; exact A|]. intros w w' Hw. cbn. auto.
    + cbn. auto.
  - pose proof (allocate_rel t t' x x' None H Hx) as (A & B).
    destruct (allocate t x None) as [v i], (allocate t' x' None) as [v' i']. cbn [fst snd] in *. subst i'.
    eapply rr_bind with (R := eq); [destruct (Nat.eqb _ i); reflexivity|]. intros _ _ _. cbn. split; auto. split; [reflexivity|apply A].
Qed.

Lemma preorder_loop_rel fuel : forall t t' st, trel t t' -> rr eq (preorder_loop fuel t st) (preorder_loop fuel t' st).
Proof.
  induction fuel as [|fuel IH]; intros t t' [|i st] H; cbn [preorder_loop]; try reflexivity.
  rstep. rewrite E1, E2. eapply rr_bind; [apply IH; exact H|]. intros a b ->. reflexivity.
Qed.
Lemma preorder_indices_rel t t' : trel t t' -> rr eq (preorder_indices t) (preorder_indices t').
Proof. intros H. unfold preorder_indices. rewrite (trel_length _ _ H), (proj1 H). apply preorder_loop_rel. exact H. Qed.
End Param.

(** ** Tables *)
Definition same_key (a b : edata) : Prop := x_name a = x_name b.
Definition wrel (w w' : writer) : Prop := trel same_key (w_table w) (w_table w').

Lemma cmp_key a a' b b' : same_key a a' -> same_key b b' -> edata_cmp a b = edata_cmp a' b'.
Proof. unfold same_key, edata_cmp. congruence. Qed.

Lemma lift_rel {E A B} (Q : A -> B -> Prop) x y : rr Q x y -> rr Q (@lift E A x) (lift y).
Proof. destruct x as [| [] | |], y as [| [] | |]; cbn; auto. Qed.

(** Runs that both succeed. *)
Lemma rr_ok {E A B} (Q : A -> B -> Prop) (x : res E A) y a b : rr Q x y -> x = Ok a -> y = Ok b -> Q a b.
Proof. intros H -> ->. exact H. Qed.

Lemma add_node_rel w w' name s1 a1 s2 a2 : wrel w w' -> rr wrel (add_node w name s1 a1) (add_node w' name s2 a2).
Proof.
  intros H. unfold add_node. destruct (256 <? utf8_len name)%N; [reflexivity|]. destruct (255 <? utf8_len name)%N; [reflexivity|].
  eapply rr_bind; [apply lift_rel, (insert_rel edata_cmp edata_cmp same_key cmp_key _ _ _ _ H); reflexivity|].
  intros [u b] [u' b'] (Hu & Hb). cbn [fst snd] in *. subst b'. destruct b; [exact Hu|reflexivity].
Qed.

Lemma add_item_ok m w x w1 : add_item m w x = Ok w1 -> exists s a, add_node w (i_name x) s a = Ok w1.
Proof.
  unfold add_item, add_dir, add_file. destruct (i_dir x); [|eauto]. intros H. apply bind_ok in H as (s & _ & H). eauto.
Qed.

Lemma add_items_rel m xs : forall ys w w' w1 w1', map i_name xs = map i_name ys -> wrel w w' ->
  foldM (add_item m) w xs = Ok w1 -> foldM (add_item m) w' ys = Ok w1' -> wrel w1 w1'.
Proof.
  induction xs as [|x xs IH]; intros [|y ys] w w' w1 w1' Hn Hw H1 H2; try discriminate Hn.
  - injection H1 as <-. injection H2 as <-. exact Hw.
  - injection Hn as Hn Hns. cbn [foldM] in *. apply bind_ok in H1 as (v & V & H1). apply bind_ok in H2 as (v' & V' & H2).
    apply add_item_ok in V as (s & a & V). apply add_item_ok in V' as (s' & a' & V'). rewrite <- Hn in V'.
    eapply IH; [exact Hns| |exact H1|exact H2]. exact (rr_ok _ _ _ _ _ (add_node_rel w w' (i_name x) s a s' a' Hw) V V').
Qed.

Lemma index_key t t' i : trel same_key t t' -> rr same_key (@bind fserr _ _ (index (tree t) i) (fun n => Ok (data n))) (bind (index (tree t') i) (fun n => Ok (data n))).
Proof.
  intros H. pose proof (nth_rel same_key t t' i H) as Hn. unfold index.
  destruct (nth_error (tree t) i) as [n|], (nth_error (tree t') i) as [n'|]; try contradiction; [|reflexivity]. apply Hn.
Qed.

Lemma mapM_rel {E A B C D} (P : A -> B -> Prop) (Q : C -> D -> Prop) (f : A -> res E C) g l l' :
  (forall a b, P a b -> rr Q (f a) (g b)) -> Forall2 P l l' -> rr (Forall2 Q) (mapM f l) (mapM g l').
Proof.
  intros Hf. induction 1 as [|a b l l' H1 H2 IH]; cbn [mapM]; [constructor|]. eapply rr_bind; [apply Hf; exact H1|]. intros c d Hc.
  eapply rr_bind; [exact IH|]. intros cs ds Hcs. constructor; auto.
Qed.

Lemma preorder_data_rel t t' : trel same_key t t' -> rr (Forall2 same_key) (preorder_data t) (preorder_data t').
Proof.
  intros H. unfold preorder_data. eapply rr_bind; [apply lift_rel, (preorder_indices_rel same_key); exact H|]. intros a is ->.
  eapply mapM_rel with (P := eq); [|clear; induction is; constructor; auto]. intros i ? <-. apply index_key. exact H.
Qed.

Lemma size_fold_rel m l l' : Forall2 same_key l l' -> forall acc, foldM (size_step m) acc l = foldM (size_step m) acc l'.
Proof.
  induction 1 as [|x x' l l' H1 H2 IH]; intros acc; cbn [foldM]; auto.
  assert (E : size_step m acc x = size_step m acc x').
  { unfold size_step, len_on_disk, encode_name. rewrite H1. reflexivity. }
  rewrite E. destruct (size_step m acc x'); cbn; auto.
Qed.

Theorem table_size_fun m cs s s' : table_size m cs s -> table_size m cs s' -> s = s'.
Proof.
  intros (xs & w & w1 & A1 & A2 & A3 & A4) (ys & v & v1 & B1 & B2 & B3 & B4).
  assert (Hw : wrel w v).
  { eapply (add_items_rel m xs ys writer_default writer_default); [congruence| |exact A2|exact B2]. split; [reflexivity|constructor]. }
  unfold compute_size in *. apply bind_ok in A3 as (l & L & A3). apply bind_ok in A3 as (z & Z & A3). injection A3 as <-.
  apply bind_ok in B3 as (l' & L' & B3). apply bind_ok in B3 as (z' & Z' & B3). injection B3 as <-.
  pose proof (rr_ok _ _ _ _ _ (preorder_data_rel _ _ Hw) L L') as Hl. rewrite (size_fold_rel m _ _ Hl) in Z. rewrite Z in Z'. injection Z' as <-.
  unfold dirtab_size, table_is_empty in *. cbn [w_table w_size] in *. pose proof (trel_length _ _ _ Hw) as Hn.
  destruct (tree (w_table w)), (tree (w_table v)); cbn in Hn; try discriminate; congruence.
Qed.
