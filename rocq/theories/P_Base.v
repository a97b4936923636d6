(** Lemmas about the basic vocabulary. *)
From Verif Require Import M_Base.
From Coq Require Import ZifyBool ZifyNat ZifyN Permutation Sorted.
From Coq Require Import Init.Byte Strings.Byte.
Ltac Zify.zify_post_hook ::= Z.div_mod_to_equations.

Lemma bind_ok {E A B} (r : res E A) (k : A -> res E B) b :
  bind r k = Ok b <-> exists a, r = Ok a /\ k a = Ok b.
Proof.
  split.
  - destruct r as [a|e|p|]; cbn; intros H; try discriminate. eauto.
  - intros (a & -> & H). exact H.
Qed.

Lemma upd_length {A} (l : list A) i x : length (upd l i x) = length l.
Proof. revert i; induction l as [|a l IH]; intros [|i]; cbn; congruence. Qed.

Lemma nth_upd_eq {A} (l : list A) i x : i < length l -> nth_error (upd l i x) i = Some x.
Proof.
  revert i; induction l as [|a l IH]; intros [|i] H; cbn in *; try lia; auto.
  apply IH; lia.
Qed.

Lemma nth_upd_ne {A} (l : list A) i j x : i <> j -> nth_error (upd l i x) j = nth_error l j.
Proof.
  revert i j; induction l as [|a l IH]; intros [|i] [|j] H; cbn; auto; try congruence.
Qed.

Lemma nth_upd {A} (l : list A) i j x :
  nth_error (upd l i x) j =
  if Nat.eqb i j then (match nth_error l j with Some _ => Some x | None => None end) else nth_error l j.
Proof.
  destruct (Nat.eqb_spec i j) as [->|H].
  - destruct (nth_error l j) eqn:Hn.
    + apply nth_upd_eq. apply nth_error_Some. congruence.
    + apply nth_error_None. rewrite upd_length. apply nth_error_None; auto.
  - apply nth_upd_ne; auto.
Qed.

Lemma map_upd {A B} (f : A -> B) (l : list A) i x y :
  nth_error l i = Some y -> f x = f y -> map f (upd l i x) = map f l.
Proof.
  revert i; induction l as [|a l IH]; intros [|i] Hn Hf; cbn in *; try congruence.
  f_equal; eauto.
Qed.

Lemma index_ok {E A} (l : list A) i a : nth_error l i = Some a -> @index E A l i = Ok a.
Proof. unfold index; intros ->; auto. Qed.

Lemma nth_error_lt {A} (l : list A) i a : nth_error l i = Some a -> i < length l.
Proof. intros H; apply nth_error_Some; congruence. Qed.

Lemma nth_error_ext {A} (l l' : list A) :
  (forall i, nth_error l i = nth_error l' i) -> l = l'.
Proof.
  revert l'; induction l as [|a l IH]; intros [|b l'] H; auto.
  - specialize (H 0); discriminate.
  - specialize (H 0); discriminate.
  - pose proof (H 0) as H0; cbn in H0; injection H0 as ->. f_equal. apply IH. intros i. apply (H (S i)).
Qed.

Lemma NoDup_app_inv {A} (l1 l2 : list A) :
  NoDup (l1 ++ l2) <-> NoDup l1 /\ NoDup l2 /\ (forall x, In x l1 -> ~ In x l2).
Proof.
  induction l1 as [|a l1 IH]; cbn.
  - split; [intros H; repeat split; auto using NoDup_nil|tauto].
  - rewrite !NoDup_cons_iff, IH, in_app_iff. split.
    + intros (H1 & H2 & H3 & H4). repeat split; auto; try tauto.
      intros x [<-|Hx]; auto; tauto.
    + intros ((H1 & H2) & H3 & H4).
      assert (Ha : ~ In a l2) by (apply H4; auto).
      repeat split; auto. tauto.
Qed.

(** bytes *)
Lemma n2b_b2n b : n2b (b2n b) = b.
Proof. unfold n2b, b2n. destruct b; reflexivity. Qed.

Lemma b2n_bound b : (b2n b < 256)%N.
Proof. unfold b2n. destruct b; reflexivity. Qed.

Lemma b2n_n2b n : b2n (n2b n) = (n mod 256)%N.
Proof.
  unfold n2b, b2n.
  assert (Hm : (n mod 256 < 256)%N) by (apply N.mod_lt; lia).
  destruct (Byte.of_N (n mod 256)) as [b|] eqn:Hb.
  - apply Byte.to_of_N in Hb. exact Hb.
  - apply Byte.of_N_None_iff in Hb. lia.
Qed.

Lemma b2n_inj a b : b2n a = b2n b -> a = b.
Proof. intros H. rewrite <- (n2b_b2n a), <- (n2b_b2n b), H. auto. Qed.

Lemma byte_eqb_spec a b : Byte.eqb a b = true <-> a = b.
Proof.
  split; [apply Byte.byte_dec_bl | apply Byte.byte_dec_lb].
Qed.

Lemma bytes_eqb_spec a b : bytes_eqb a b = true <-> a = b.
Proof.
  revert b; induction a as [|x a IH]; intros [|y b]; cbn; try (split; congruence).
  rewrite andb_true_iff, IH, byte_eqb_spec. split; [intros [-> ->]; auto | intros H; injection H; auto].
Qed.

Lemma str_eqb_spec a b : str_eqb a b = true <-> a = b.
Proof.
  revert b; induction a as [|x a IH]; intros [|y b]; cbn; try (split; congruence).
  rewrite andb_true_iff, IH, N.eqb_eq. split; [intros [-> ->]; auto | intros H; injection H; auto].
Qed.

Lemma len_app {A} (a b : list A) : len (a ++ b) = (len a + len b)%N.
Proof. unfold len. rewrite app_length. lia. Qed.

Lemma len_fill {A} n (x : A) : len (fill n x) = n.
Proof. unfold len, fill. rewrite repeat_length. lia. Qed.

Lemma len_nil {A} : len (@nil A) = 0%N. Proof. reflexivity. Qed.
Lemma len_cons {A} (x : A) l : len (x :: l) = (1 + len l)%N.
Proof. unfold len. cbn [length]. lia. Qed.

Ltac ssplit := repeat match goal with |- _ /\ _ => split end.

Global Arguments Z.add : simpl never.
Global Arguments Z.sub : simpl never.
Global Arguments Z.max : simpl never.
Global Arguments N.add : simpl never.
Global Arguments N.sub : simpl never.
Global Arguments N.mul : simpl never.
Global Arguments N.div : simpl never.
Global Arguments N.modulo : simpl never.
Global Arguments N.min : simpl never.
Global Arguments N.max : simpl never.
Global Arguments N.eqb : simpl never.
Global Arguments N.ltb : simpl never.
Global Arguments N.leb : simpl never.
Global Arguments N.compare : simpl never.
Global Arguments N.to_nat : simpl never.
Global Arguments N.of_nat : simpl never.
