(** Specification vocabulary for the balanced tree (properties C01-C04). Nothing
    here mentions rotations, rebalancing or the insertion algorithm. *)
From Verif Require Import M_Base M_Avl.
From Coq Require Import Sorted Arith.

(** The history of a caller: insert the elements of [xs] in order, collecting
    the returned flags ("was inserted"). *)
Fixpoint insert_all {T} (cmp : T -> T -> comparison) (t : avl T) (xs : list T) : res Empty_set (avl T * list bool) :=
  match xs with
  | [] => Ok (t, [])
  | x :: xs => let* (t, b) := insert cmp t x in
               let* (t, bs) := insert_all cmp t xs in
               Ok (t, b :: bs)
  end.

(** What a set that keeps the first of several equal elements contains. *)
Definition known {T} (cmp : T -> T -> comparison) (x : T) (acc : list T) : bool :=
  existsb (fun y => match cmp x y with Eq => true | _ => false end) acc.

Fixpoint keep_first {T} (cmp : T -> T -> comparison) (acc xs : list T) : list T * list bool :=
  match xs with
  | [] => (acc, [])
  | x :: xs =>
      if known cmp x acc then let (r, bs) := keep_first cmp acc xs in (r, false :: bs)
      else let (r, bs) := keep_first cmp (acc ++ [x]) xs in (r, true :: bs)
  end.

(** Abstract binary trees carrying their elements. *)
Inductive dtree (T : Type) := Leaf | Node (l : dtree T) (x : T) (r : dtree T).
Arguments Leaf {T}.
Arguments Node {T} l x r.

Fixpoint inorder {T} (d : dtree T) : list T :=
  match d with Leaf => [] | Node l x r => inorder l ++ x :: inorder r end.
Fixpoint preorder {T} (d : dtree T) : list T :=
  match d with Leaf => [] | Node l x r => x :: preorder l ++ preorder r end.
Fixpoint depth {T} (d : dtree T) : nat :=
  match d with Leaf => 0 | Node l _ r => S (Nat.max (depth l) (depth r)) end.
Fixpoint size {T} (d : dtree T) : nat :=
  match d with Leaf => 0 | Node l _ r => S (size l + size r) end.

(** Height-balanced everywhere. *)
Fixpoint balanced {T} (d : dtree T) : Prop :=
  match d with
  | Leaf => True
  | Node l _ r => balanced l /\ balanced r /\ depth l <= S (depth r) /\ depth r <= S (depth l)
  end.

(** [link] is how the arena represents the tree [d] hanging below [parent]: the
    cached heights and the parent links are part of it. [order] is the list of
    backing positions in preorder. *)
Inductive link {T} (ns : list (node T)) : option nat -> option nat -> dtree T -> list nat -> Prop :=
| link_leaf p : link ns p None Leaf []
| link_node p i n l r ol or_ :
    nth_error ns i = Some n ->
    parent n = p ->
    link ns (Some i) (left_node n) l ol ->
    link ns (Some i) (right_node n) r or_ ->
    height n = Z.of_nat (depth (Node l (data n) r)) ->
    link ns p (Some i) (Node l (data n) r) (i :: ol ++ or_).

Definition strictly_sorted {T} (cmp : T -> T -> comparison) (l : list T) : Prop :=
  StronglySorted (fun x y => cmp x y = Lt) l.

Record total_order {T} (cmp : T -> T -> comparison) : Prop := {
  ord_opp : forall x y, cmp y x = CompOpp (cmp x y);
  ord_trans : forall x y z, cmp x y = Lt -> cmp y z = Lt -> cmp x z = Lt;
  ord_eq : forall x y z, cmp x y = Eq -> cmp y z = Eq -> cmp x z = Eq
}.

Fixpoint fib (n : nat) : nat :=
  match n with
  | 0 => 0
  | S n' => match n' with 0 => 1 | S n'' => fib n' + fib n'' end
  end.
