(** Properties C01-C04: the directory index (write/avl.rs). *)
From Verif Require Import M_Base M_Util M_Layout M_Avl S_Avl P_Base P_AvlTree.
From Coq Require Import Permutation.

(** C01: every insertion history runs without panic or divergence and yields a
    balanced search tree with exact links and heights. *)
Theorem c01_index_is_balanced_search_tree :
  forall (T : Type) (cmp : T -> T -> comparison), total_order cmp ->
  forall xs : list T, exists t bs d order,
    insert_all cmp avl_default xs = Ok (t, bs)
    /\ link (tree t) None (root t) d order
    /\ balanced d /\ strictly_sorted cmp (inorder d)
    /\ Permutation order (seq 0 (length (tree t)))
    /\ keep_first cmp [] xs = (map data (tree t), bs)
    /\ Permutation (inorder d) (map data (tree t)).
Proof. exact (fun T cmp H => history_correct cmp H). Qed.
Print Assumptions c01_index_is_balanced_search_tree.

Example c01_example :
  exists t, insert_all Nat.compare avl_default [5; 1; 9; 5; 7; 8; 2] = Ok (t, [true; true; true; false; true; true; true])
    /\ map data (tree t) = [5; 1; 9; 7; 8; 2] /\ root t = Some 0.
Proof. eexists. ssplit; vm_compute; reflexivity. Qed.

(** C02: an insertion reports whether the element is new; a duplicate changes
    nothing at all, a new element is the only one added. *)
Theorem c02_insert_is_set_insertion :
  forall (T : Type) (cmp : T -> T -> comparison), total_order cmp ->
  forall (xs : list T) t bs x,
    insert_all cmp avl_default xs = Ok (t, bs) ->
    exists t', insert cmp t x = Ok (t', negb (known cmp x (map data (tree t))))
      /\ (if known cmp x (map data (tree t)) then t' = t
          else map data (tree t') = map data (tree t) ++ [x]).
Proof. exact (fun T cmp H => insert_after cmp H). Qed.
Print Assumptions c02_insert_is_set_insertion.

Example c02_example :
  exists t bs, insert_all Nat.compare avl_default [3; 4] = Ok (t, bs)
    /\ insert Nat.compare t 4 = Ok (t, false)
    /\ exists t', insert Nat.compare t 6 = Ok (t', true) /\ map data (tree t') = [3; 4; 6].
Proof. eexists _, _. split; [vm_compute; reflexivity|split; [vm_compute; reflexivity|]]. eexists. split; vm_compute; reflexivity. Qed.

(** C03: depth against the Fibonacci numbers, and the square of the size. *)
Theorem c03_depth_is_logarithmic :
  forall (T : Type) (cmp : T -> T -> comparison), total_order cmp ->
  forall (xs : list T) t bs d order,
    insert_all cmp avl_default xs = Ok (t, bs) ->
    link (tree t) None (root t) d order ->
    fib (depth d + 2) <= length (tree t) + 1
    /\ 2 ^ depth d <= (length (tree t) + 1) * (length (tree t) + 1).
Proof. exact (fun T cmp H => history_depth cmp H). Qed.
Print Assumptions c03_depth_is_logarithmic.

Example c03_example :
  exists t bs, insert_all Nat.compare avl_default (seq 0 20) = Ok (t, bs)
    /\ option_map height (nth_error (tree t) 7) = Some 5%Z /\ root t = Some 7.
Proof. eexists _, _. ssplit; vm_compute; reflexivity. Qed.

(** C04: reordering keeps the very same abstract tree and makes the backing
    vector its preorder; the preorder iterator agrees. *)
Theorem c04_reorder_is_exact :
  forall (T : Type) (cmp : T -> T -> comparison), total_order cmp ->
  forall (xs : list T) t bs d order,
    insert_all cmp avl_default xs = Ok (t, bs) ->
    link (tree t) None (root t) d order ->
    preorder_indices t = Ok order
    /\ exists t', reorder_backing_preorder t = Ok t'
      /\ link (tree t') None (root t') d (seq 0 (length (tree t)))
      /\ length (tree t') = length (tree t)
      /\ map data (tree t') = preorder d.
Proof. exact (fun T cmp H => history_reorder cmp H). Qed.
Print Assumptions c04_reorder_is_exact.

Example c04_example :
  exists t bs t', insert_all Nat.compare avl_default [1; 2; 3; 4; 5; 6; 7] = Ok (t, bs)
    /\ preorder_indices t = Ok [3; 1; 0; 2; 5; 4; 6]
    /\ reorder_backing_preorder t = Ok t' /\ map data (tree t') = [4; 2; 1; 3; 6; 5; 7].
Proof. eexists _, _, _. ssplit; vm_compute; reflexivity. Qed.
