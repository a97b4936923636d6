(** Model of xdvdfs-core/src/write/avl.rs.
    The arena [Vec<AvlNode<T>>] is a list, [Option<usize>] links are
    [option nat], heights are [Z] (i32 in Rust; the depth bound shows that they
    cannot overflow). [&mut self] methods return the new tree. Loops that walk
    links carry fuel. *)
From Verif Require Import M_Base.

Section Avl.
Context {T : Type}.
Variable cmp : T -> T -> comparison.   (* Ord::cmp *)

(** avl.rs:5-11 [AvlDirection]. *)
Inductive dir := DLeft | DRight | DLeaf.

(** avl.rs:14-20 [AvlNode]. *)
Record node := mkNode {
  left_node : option nat;
  right_node : option nat;
  parent : option nat;
  height : Z;
  data : T
}.

(** avl.rs:54-57 [AvlTree]. *)
Record avl := mkAvl { root : option nat; tree : list node }.

(** avl.rs:59-66 [Default]. *)
Definition avl_default : avl := mkAvl None [].

(** The avl functions have no [Err] result. *)
Definition M := res Empty_set.

(** avl.rs:23-31 [AvlNode::new]. *)
Definition node_new (d : T) (p : option nat) : node := mkNode None None p 1 d.

(** avl.rs:33-39 [child_from_direction]. *)
Definition child_from_direction (n : node) (d : dir) : option nat :=
  match d with DLeft => left_node n | DRight => right_node n | DLeaf => None end.

(** field updates through [&mut self.tree[i].field] *)
Definition with_left (v : option nat) (n : node) := mkNode v (right_node n) (parent n) (height n) (data n).
Definition with_right (v : option nat) (n : node) := mkNode (left_node n) v (parent n) (height n) (data n).
Definition with_parent (v : option nat) (n : node) := mkNode (left_node n) (right_node n) v (height n) (data n).
Definition with_height (h : Z) (n : node) := mkNode (left_node n) (right_node n) (parent n) h (data n).

Definition modify (t : avl) (i : nat) (f : node -> node) : M avl :=
  let* n := index (tree t) i in Ok (mkAvl (root t) (upd (tree t) i (f n))).

(** avl.rs:137-140 [allocate]; the returned index is [len - 1]. *)
Definition allocate (t : avl) (d : T) (p : option nat) : avl * nat :=
  let tr := tree t ++ [node_new d p] in (mkAvl (root t) tr, length tr - 1).

(** avl.rs:142-160 [parent_direction]. *)
Definition opt_is (o : option nat) (i : nat) : bool :=
  match o with Some j => Nat.eqb j i | None => false end.

Definition parent_direction (t : avl) (i : nat) : M (option (nat * dir)) :=
  let* n := index (tree t) i in
  match parent n with
  | None => Ok None
  | Some p =>
      let* pn := index (tree t) p in
      if opt_is (left_node pn) i then Ok (Some (p, DLeft))
      else if opt_is (right_node pn) i then Ok (Some (p, DRight))
      else Panic PUnreachable
  end.

(** avl.rs:162-175 [parent_node_ref]: a reference to the slot that holds the
    link to [idx]; [store_ref] assigns through it. *)
Inductive slot := SRoot | SLeft (p : nat) | SRight (p : nat).

Definition parent_node_ref (t : avl) (i : nat) : M slot :=
  let* pd := parent_direction t i in
  match pd with
  | None => Ok SRoot
  | Some (p, DLeft) => Ok (SLeft p)
  | Some (p, DRight) => Ok (SRight p)
  | Some (_, DLeaf) => Panic PUnreachable
  end.

Definition store_ref (t : avl) (s : slot) (v : option nat) : M avl :=
  match s with
  | SRoot => Ok (mkAvl v (tree t))
  | SLeft p => modify t p (with_left v)
  | SRight p => modify t p (with_right v)
  end.

Definition set_parent_ref (t : avl) (i : nat) (v : option nat) : M avl :=
  let* s := parent_node_ref t i in store_ref t s v.

Definition child_height (t : avl) (o : option nat) : M Z :=
  match o with
  | Some i => let* n := index (tree t) i in Ok (height n)
  | None => Ok 0%Z
  end.

(** avl.rs:177-190 [update_node_height]. *)
Definition update_node_height (t : avl) (i : nat) : M avl :=
  let* n := index (tree t) i in
  let* hl := child_height t (left_node n) in
  let* hr := child_height t (right_node n) in
  modify t i (with_height (1 + Z.max hl hr)).

(** avl.rs:192-205 [balance_factor]. *)
Definition balance_factor (t : avl) (i : nat) : M Z :=
  let* n := index (tree t) i in
  let* hl := child_height t (left_node n) in
  let* hr := child_height t (right_node n) in
  Ok (hl - hr)%Z.

(** avl.rs:207-212 [set_left_child]. *)
Definition set_left_child (t : avl) (i : nat) (c : option nat) : M avl :=
  let* t := modify t i (with_left c) in
  match c with Some j => modify t j (with_parent (Some i)) | None => Ok t end.

(** avl.rs:214-219 [set_right_child]. *)
Definition set_right_child (t : avl) (i : nat) (c : option nat) : M avl :=
  let* t := modify t i (with_right c) in
  match c with Some j => modify t j (with_parent (Some i)) | None => Ok t end.

(** avl.rs:221-236 [l_rotate]. *)
Definition l_rotate (t : avl) (a b c : nat) : M avl :=
  let* na := index (tree t) a in
  let* _ := rassert (opt_is (right_node na) b) in
  let* nb := index (tree t) b in
  let* _ := rassert (opt_is (right_node nb) c) in
  let a_parent := parent na in
  let* t := set_parent_ref t a (Some b) in
  let* t := modify t b (with_parent a_parent) in
  let* nb := index (tree t) b in
  let b_left := left_node nb in
  let* t := set_right_child t a b_left in
  let* t := set_left_child t b (Some a) in
  let* t := update_node_height t a in
  let* t := update_node_height t c in
  update_node_height t b.

(** avl.rs:238-253 [r_rotate]. *)
Definition r_rotate (t : avl) (a b c : nat) : M avl :=
  let* na := index (tree t) a in
  let* _ := rassert (opt_is (left_node na) b) in
  let* nb := index (tree t) b in
  let* _ := rassert (opt_is (left_node nb) c) in
  let a_parent := parent na in
  let* t := set_parent_ref t a (Some b) in
  let* t := modify t b (with_parent a_parent) in
  let* nb := index (tree t) b in
  let b_right := right_node nb in
  let* t := set_left_child t a b_right in
  let* t := set_right_child t b (Some a) in
  let* t := update_node_height t a in
  let* t := update_node_height t c in
  update_node_height t b.

(** avl.rs:255-275 [rl_rotate]. *)
Definition rl_rotate (t : avl) (a b c : nat) : M avl :=
  let* na := index (tree t) a in
  let* _ := rassert (opt_is (right_node na) b) in
  let* nb := index (tree t) b in
  let* _ := rassert (opt_is (left_node nb) c) in
  let a_parent := parent na in
  let* t := set_parent_ref t a (Some c) in
  let* t := modify t c (with_parent a_parent) in
  let* nc := index (tree t) c in
  let* t := set_right_child t a (left_node nc) in
  let* nc := index (tree t) c in
  let* t := set_left_child t b (right_node nc) in
  let* t := set_right_child t c (Some b) in
  let* t := set_left_child t c (Some a) in
  let* t := update_node_height t a in
  let* t := update_node_height t b in
  update_node_height t c.

(** avl.rs:277-297 [lr_rotate]. *)
Definition lr_rotate (t : avl) (a b c : nat) : M avl :=
  let* na := index (tree t) a in
  let* _ := rassert (opt_is (left_node na) b) in
  let* nb := index (tree t) b in
  let* _ := rassert (opt_is (right_node nb) c) in
  let a_parent := parent na in
  let* t := set_parent_ref t a (Some c) in
  let* t := modify t c (with_parent a_parent) in
  let* nc := index (tree t) c in
  let* t := set_right_child t b (left_node nc) in
  let* nc := index (tree t) c in
  let* t := set_left_child t a (right_node nc) in
  let* t := set_right_child t c (Some a) in
  let* t := set_left_child t c (Some b) in
  let* t := update_node_height t a in
  let* t := update_node_height t b in
  update_node_height t c.

(** avl.rs:299-320 [perform_rotation]. *)
Definition perform_rotation (t : avl) (a b c : nat) (ab bc : dir) : M avl :=
  match ab, bc with
  | DLeft, DLeft => r_rotate t a b c
  | DLeft, DRight => lr_rotate t a b c
  | DRight, DLeft => rl_rotate t a b c
  | DRight, DRight => l_rotate t a b c
  | _, _ => Panic PUnreachable
  end.

(** avl.rs:331-344, the loop of [rebalance]. [cur] and [prev] are
    [current_idx] and [prev_idx]. *)
Fixpoint rebalance_loop (fuel : nat) (t : avl) (cur prev : option (nat * dir)) : M avl :=
  match cur with
  | None => Ok t
  | Some (idx, d) =>
      match fuel with
      | O => OutOfFuel
      | S fuel' =>
          let* t := update_node_height t idx in
          let* bf := balance_factor t idx in
          let* t :=
            (if ((-1 <=? bf) && (bf <=? 1))%Z then Ok t
             else
               let* (node_b, prev_dir) := unwrap prev in
               let* nb := index (tree t) node_b in
               let* node_c := unwrap (child_from_direction nb prev_dir) in
               perform_rotation t idx node_b node_c d prev_dir) in
          let* next := parent_direction t idx in
          rebalance_loop fuel' t next cur
      end
  end.

(** avl.rs:322-345 [rebalance]. *)
Definition rebalance (fuel : nat) (t : avl) (leaf : nat) : M avl :=
  let* _ := rassert (match nth_error (tree t) leaf with
                     | Some n => match left_node n, right_node n with None, None => true | _, _ => false end
                     | None => false end) in
  rebalance_loop fuel t (Some (leaf, DLeaf)) None.

(** avl.rs:367-384, the descent loop of [insert]. [None]: an equal element was
    found. [Some (t', p)]: the free slot below [p] now holds [free]. *)
Fixpoint insert_descend (fuel : nat) (t : avl) (d : T) (free cur : nat) : M (option (avl * nat)) :=
  match fuel with
  | O => OutOfFuel
  | S fuel' =>
      let* n := index (tree t) cur in
      match cmp d (data n) with
      | Lt => match left_node n with
              | Some i => insert_descend fuel' t d free i
              | None => let* t := modify t cur (with_left (Some free)) in Ok (Some (t, cur))
              end
      | Gt => match right_node n with
              | Some i => insert_descend fuel' t d free i
              | None => let* t := modify t cur (with_right (Some free)) in Ok (Some (t, cur))
              end
      | Eq => Ok None
      end
  end.

(** avl.rs:350-390 [insert]. Fuel: the descent and the way back visit at most
    the nodes of the tree, plus one extra visit after a rotation. *)
Definition insert (t : avl) (d : T) : M (avl * bool) :=
  let free := length (tree t) in
  match root t with
  | None =>
      let (t, i) := allocate t d None in
      let* _ := rassert (Nat.eqb free i) in
      Ok (mkAvl (Some free) (tree t), true)
  | Some cur =>
      let* r := insert_descend (S free) t d free cur in
      match r with
      | None => Ok (t, false)
      | Some (t, p) =>
          let (t, i) := allocate t d (Some p) in
          let* _ := rassert (Nat.eqb free i) in
          let* t := rebalance (2 * S (S free)) t i in
          Ok (t, true)
      end
  end.

(** avl.rs:522-541 [AvlPreorderIter::next], run to exhaustion: the sequence of
    backing indices. *)
Definition push_opt (o : option nat) (st : list nat) : list nat :=
  match o with Some i => i :: st | None => st end.

Fixpoint preorder_loop (fuel : nat) (t : avl) (stack : list nat) : M (list nat) :=
  match stack with
  | [] => Ok []
  | top :: st =>
      match fuel with
      | O => OutOfFuel
      | S fuel' =>
          let* n := index (tree t) top in
          let* r := preorder_loop fuel' t (push_opt (left_node n) (push_opt (right_node n) st)) in
          Ok (top :: r)
      end
  end.

(** avl.rs:405-412 [preorder_iter]. *)
Definition preorder_indices (t : avl) : M (list nat) :=
  preorder_loop (length (tree t)) t (push_opt (root t) []).

(** avl.rs:418-451 [swap_backing_elements]. *)
Definition swap_list {A} (l : list A) (i j : nat) : option (list A) :=
  match nth_error l i, nth_error l j with
  | Some x, Some y => Some (upd (upd l i y) j x)
  | _, _ => None
  end.

Definition reparent (t : avl) (o : option nat) (p : nat) : M avl :=
  match o with Some i => modify t i (with_parent (Some p)) | None => Ok t end.

Definition swap_backing_elements (t : avl) (a b : nat) : M avl :=
  if Nat.eqb a b then Ok t
  else
    let t := match root t with
             | Some r => if Nat.eqb r a then mkAvl (Some b) (tree t)
                         else if Nat.eqb r b then mkAvl (Some a) (tree t)
                         else t
             | None => t
             end in
    let* t := set_parent_ref t a (Some b) in
    let* t := set_parent_ref t b (Some a) in
    match swap_list (tree t) a b with
    | None => Panic PIndex
    | Some tr =>
        let t := mkAvl (root t) tr in
        let* n := index (tree t) a in
        let* t := reparent t (left_node n) a in
        let* n := index (tree t) a in
        let* t := reparent t (right_node n) a in
        let* n := index (tree t) b in
        let* t := reparent t (left_node n) b in
        let* n := index (tree t) b in
        reparent t (right_node n) b
    end.

(** avl.rs:463-472, the loop of [reorder_backing_preorder]. *)
Fixpoint reorder_loop (t : avl) (mapping inv_mapping : list nat) (i : nat) (preorder : list nat) : M avl :=
  match preorder with
  | [] => Ok t
  | backing_idx :: rest =>
      let* dest := index mapping backing_idx in
      let* t := swap_backing_elements t i dest in
      let mapping := upd mapping backing_idx i in
      let* k := index inv_mapping i in
      let* _ := index mapping k in
      let mapping := upd mapping k dest in
      let* _ := index inv_mapping dest in
      let inv_mapping := upd inv_mapping dest k in
      let inv_mapping := upd inv_mapping i backing_idx in
      reorder_loop t mapping inv_mapping (S i) rest
  end.

(** avl.rs:454-473 [reorder_backing_preorder]. *)
Definition reorder_backing_preorder (t : avl) : M avl :=
  let* preorder := preorder_indices t in
  let mapping := seq 0 (length preorder) in
  reorder_loop t mapping mapping 0 preorder.

End Avl.

Arguments node T : clear implicits.
Arguments avl T : clear implicits.
