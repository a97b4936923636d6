(** Paths and ordered maps. *)
From Verif Require Import M_Base M_Img P_Base.
From Coq Require Import Sorted Lia Permutation.
Local Open Scope N_scope.

Section Lex.
Context {A : Type} (cmp : A -> A -> comparison).
Hypothesis Heq : forall x y, cmp x y = Eq <-> x = y.
Hypothesis Hopp : forall x y, cmp y x = CompOpp (cmp x y).
Hypothesis Htr : forall x y z, cmp x y = Lt -> cmp y z = Lt -> cmp x z = Lt.

Lemma lex_eq : forall a b, lex_cmp cmp a b = Eq <-> a = b.
Proof.
  induction a as [|x a IH]; destruct b as [|y b]; cbn; split; intros H; try discriminate; auto.
  - destruct (cmp x y) eqn:E; try discriminate. apply Heq in E. apply IH in H. congruence.
  - injection H as -> ->. assert (cmp y y = Eq) as -> by (apply Heq; reflexivity). apply IH. reflexivity.
Qed.

Lemma lex_opp : forall a b, lex_cmp cmp b a = CompOpp (lex_cmp cmp a b).
Proof.
  induction a as [|x a IH]; destruct b as [|y b]; cbn; auto.
  rewrite (Hopp x y). destruct (cmp x y); cbn; auto.
Qed.

Lemma lex_trans : forall a b c, lex_cmp cmp a b = Lt -> lex_cmp cmp b c = Lt -> lex_cmp cmp a c = Lt.
Proof.
  induction a as [|x a IH]; destruct b as [|y b]; destruct c as [|z c]; cbn; intros H1 H2; try discriminate; auto.
  destruct (cmp x y) eqn:E1; try discriminate.
  - apply Heq in E1. subst y. destruct (cmp x z); try discriminate; auto. eauto.
  - destruct (cmp y z) eqn:E2; try discriminate.
    + apply Heq in E2. subst z. rewrite E1. reflexivity.
    + rewrite (Htr _ _ _ E1 E2). reflexivity.
Qed.

Lemma lex_prefix a s : s <> [] -> lex_cmp cmp a (a ++ s) = Lt.
Proof.
  intros Hs. induction a as [|x a IH]; cbn.
  - destruct s; [congruence|reflexivity].
  - assert (cmp x x = Eq) as -> by (apply Heq; reflexivity). exact IH.
Qed.
End Lex.

Lemma str_cmp_eq a b : str_cmp a b = Eq <-> a = b.
Proof. apply lex_eq. apply N.compare_eq_iff. Qed.
Lemma str_cmp_opp a b : str_cmp b a = CompOpp (str_cmp a b).
Proof. apply lex_opp. intros. apply N.compare_antisym. Qed.
Lemma str_cmp_trans a b c : str_cmp a b = Lt -> str_cmp b c = Lt -> str_cmp a c = Lt.
Proof. apply lex_trans; [apply N.compare_eq_iff|]. intros x y z. rewrite !N.compare_lt_iff. lia. Qed.

Lemma path_cmp_eq a b : path_cmp a b = Eq <-> a = b.
Proof. apply lex_eq, str_cmp_eq. Qed.
Lemma path_cmp_refl a : path_cmp a a = Eq.
Proof. apply path_cmp_eq. reflexivity. Qed.
Lemma path_cmp_opp a b : path_cmp b a = CompOpp (path_cmp a b).
Proof. apply lex_opp, str_cmp_opp. Qed.
Lemma path_cmp_trans a b c : path_cmp a b = Lt -> path_cmp b c = Lt -> path_cmp a c = Lt.
Proof. apply lex_trans; [apply str_cmp_eq|apply str_cmp_trans]. Qed.
Lemma path_cmp_parent p n : path_cmp p (from_base p n) = Lt.
Proof. apply lex_prefix; [apply str_cmp_eq|discriminate]. Qed.

Lemma path_eq_dec (a b : path) : {a = b} + {a <> b}.
Proof.
  destruct (path_cmp a b) eqn:E.
  - left. apply path_cmp_eq. exact E.
  - right. intros ->. rewrite path_cmp_refl in E. discriminate.
  - right. intros ->. rewrite path_cmp_refl in E. discriminate.
Qed.

Definition path_lt (a b : path) : Prop := path_cmp a b = Lt.
Definition keys {A} (m : dmap A) : list path := map fst m.
Definition sorted {A} (m : dmap A) : Prop := StronglySorted path_lt (keys m).

Lemma get_insert_same {A} p (a : A) m : map_get p (map_insert p a m) = Some a.
Proof.
  induction m as [|[q b] m IH]; cbn; [rewrite path_cmp_refl; reflexivity|].
  destruct (path_cmp p q) eqn:E; cbn.
  - rewrite E. reflexivity.
  - rewrite path_cmp_refl. reflexivity.
  - rewrite E. exact IH.
Qed.

Lemma sorted_tail {A} q (b : A) m : sorted ((q, b) :: m) -> sorted m /\ forall r, In r (keys m) -> path_lt q r.
Proof. intros H. inversion H as [|? ? H1 H2]; subst. split; auto. rewrite Forall_forall in H2. exact H2. Qed.

Lemma get_insert_other {A} p q (a : A) m : p <> q -> map_get p (map_insert q a m) = map_get p m.
Proof.
  intros Hne. induction m as [|[r b] m IH]; cbn.
  - destruct (path_cmp p q) eqn:E; auto. apply path_cmp_eq in E. congruence.
  - destruct (path_cmp q r) eqn:E; cbn.
    + apply path_cmp_eq in E. subst r. destruct (path_cmp p q) eqn:E'; auto. apply path_cmp_eq in E'. congruence.
    + destruct (path_cmp p q) eqn:E'; auto.
      * apply path_cmp_eq in E'. congruence.
      * rewrite (path_cmp_trans _ _ _ E' E). reflexivity.
    + rewrite IH. reflexivity.
Qed.

Lemma insert_keys {A} p (a : A) m r : In r (keys (map_insert p a m)) <-> r = p \/ In r (keys m).
Proof.
  induction m as [|[q b] m IH]; cbn; [intuition auto|].
  destruct (path_cmp p q) eqn:E; cbn.
  - apply path_cmp_eq in E. subst q. intuition auto.
  - intuition auto.
  - rewrite IH. intuition auto.
Qed.

Lemma insert_sorted {A} p (a : A) m : sorted m -> sorted (map_insert p a m).
Proof.
  unfold sorted. induction m as [|[q b] m IH]; cbn; intros H.
  - repeat constructor.
  - destruct (sorted_tail q b m H) as [H1 H2].
    destruct (path_cmp p q) eqn:E; cbn.
    + exact H.
    + constructor; [exact H|]. constructor; [exact E|]. apply Forall_forall. intros r Hr.
      eapply path_cmp_trans; [exact E|]. apply H2. exact Hr.
    + constructor; [apply IH; exact H1|]. apply Forall_forall. intros r Hr.
      apply insert_keys in Hr. destruct Hr as [->|Hr]; [|apply H2; exact Hr].
      unfold path_lt. rewrite path_cmp_opp, E. reflexivity.
Qed.

Lemma get_in {A} p (a : A) m : sorted m -> (map_get p m = Some a <-> In (p, a) m).
Proof.
  induction m as [|[q b] m IH]; cbn; intros H; [split; [discriminate|tauto]|].
  destruct (sorted_tail q b m H) as [H1 H2]. specialize (IH H1).
  destruct (path_cmp p q) eqn:E.
  - apply path_cmp_eq in E. subst q. split.
    + intros [= ->]. auto.
    + intros [[= ->]|Hin]; auto. exfalso. specialize (H2 p (in_map fst _ _ Hin)).
      unfold path_lt in H2. rewrite path_cmp_refl in H2. discriminate.
  - split; [discriminate|]. intros [[= -> ->]|Hin]; [rewrite path_cmp_refl in E; discriminate|].
    exfalso. specialize (H2 p (in_map fst _ _ Hin)). cbn in H2.
    pose proof (path_cmp_trans _ _ _ E H2) as X. rewrite path_cmp_refl in X. discriminate.
  - rewrite IH. split; auto. intros [[= -> ->]|Hin]; auto. rewrite path_cmp_refl in E. discriminate.
Qed.

Lemma get_none {A} p (m : dmap A) : sorted m -> (map_get p m = None <-> ~ In p (keys m)).
Proof.
  intros Hs. split.
  - intros H Hin. apply in_map_iff in Hin. destruct Hin as [[q a] [Hq Hin]]. cbn in Hq. subst q.
    apply (get_in p a m Hs) in Hin. congruence.
  - intros H. destruct (map_get p m) eqn:E; auto. exfalso. apply H. apply get_in in E; auto.
    apply (in_map fst) in E. exact E.
Qed.

Lemma sorted_nodup {A} (m : dmap A) : sorted m -> NoDup (keys m).
Proof.
  unfold sorted. generalize (keys m). induction l as [|x l IH]; intros H; [constructor|].
  inversion H as [|? ? H1 H2]; subst. constructor; auto. intros Hin. rewrite Forall_forall in H2.
  specialize (H2 x Hin). unfold path_lt in H2. rewrite path_cmp_refl in H2. discriminate.
Qed.

(** Inserting pairwise different keys keeps all of them. *)
Definition insert_list {A} (l : list (path * A)) (m : dmap A) : dmap A :=
  fold_left (fun m x => map_insert (fst x) (snd x) m) l m.

Lemma insert_perm {A} p (a : A) m : sorted m -> ~ In p (keys m) -> Permutation (map_insert p a m) ((p, a) :: m).
Proof.
  induction m as [|[q b] m IH]; cbn; intros Hs H; [reflexivity|].
  destruct (sorted_tail q b m Hs) as [H1 _].
  destruct (path_cmp p q) eqn:E.
  - apply path_cmp_eq in E. subst. exfalso. apply H. auto.
  - reflexivity.
  - rewrite IH by tauto. apply perm_swap.
Qed.

Lemma insert_list_sorted {A} (l : list (path * A)) : forall m, sorted m -> sorted (insert_list l m).
Proof. induction l as [|x l IH]; cbn; auto. intros m H. apply IH. apply insert_sorted. exact H. Qed.

Lemma insert_list_perm {A} (l : list (path * A)) : forall m, sorted m -> NoDup (map fst l ++ keys m) ->
  Permutation (insert_list l m) (l ++ m).
Proof.
  induction l as [|[p a] l IH]; intros m Hs Hn; [reflexivity|].
  cbn in Hn. inversion Hn as [|? ? Hn1 Hn2]; subst. rewrite in_app_iff in Hn1.
  change (insert_list ((p, a) :: l) m) with (insert_list l (map_insert p a m)).
  assert (Hp : Permutation (map_insert p a m) ((p, a) :: m)) by (apply insert_perm; tauto).
  rewrite IH; [|apply insert_sorted; exact Hs|].
  - rewrite Hp. symmetry. apply Permutation_middle.
  - eapply Permutation_NoDup; [|exact Hn]. cbn.
    transitivity (map fst l ++ p :: keys m); [apply Permutation_middle|].
    apply Permutation_app_head. symmetry. unfold keys. change (p :: map fst m) with (map fst ((p, a) :: m)).
    apply Permutation_map. exact Hp.
Qed.

Lemma from_base_inj p q a b : from_base p a = from_base q b -> p = q /\ a = b.
Proof. apply app_inj_tail. Qed.

(** In a sorted list of keys a parent stands before its children. *)
Lemma sorted_parent_first (l1 l2 : list path) q p n : StronglySorted path_lt (l1 ++ q :: l2) ->
  q = from_base p n -> In p (l1 ++ q :: l2) -> In p l1.
Proof.
  intros H -> Hin. apply in_app_iff in Hin. destruct Hin as [Hin|[Hin|Hin]]; auto; exfalso.
  - pose proof (path_cmp_parent p n) as X. rewrite Hin in X. rewrite path_cmp_refl in X. discriminate.
  - assert (Hs : StronglySorted path_lt (from_base p n :: l2)).
    { clear Hin. induction l1 as [|x l1 IH]; auto. apply IH. inversion H; auto. }
    inversion Hs as [|? ? H1 H2]; subst. rewrite Forall_forall in H2. specialize (H2 p Hin).
    pose proof (path_cmp_trans _ _ _ H2 (path_cmp_parent p n)) as X. rewrite path_cmp_refl in X. discriminate.
Qed.
