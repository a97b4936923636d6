(** Property C39: the path map (write/fs/mod.rs). *)
From Verif Require Import M_Base M_Util M_Layout M_Read M_Img M_Trie.
From Verif Require Import S_Trie.
From Verif Require Import P_Base P_Trie.
Local Open Scope N_scope.

(** C39. A panic is an index above 255 (C41). *)
Theorem c39_path_trie_is_a_map :
  forall (T E : Type) (l : list (op T)), Forall op_latin l ->
  exists t, insert_ops (E:=E) l = Ok t
  /\ (forall p, latin_path p -> p <> [] -> trie_get (E:=E) t p = Ok (value p (contents l)))
  /\ (forall d, latin_path d -> exists o, lookup_subdir (E:=E) t d = Ok o /\
       match o with
       | None => ~ known d (contents l)
       | Some sub => known d (contents l) /\ NoDup (map fst (trie_iter sub))
           /\ forall s v, In (s, v) (trie_iter sub) <-> latin s /\ value (d ++ [s]) (contents l) = Some v
       end).
Proof. exact @c39_lemma. Qed.
Print Assumptions c39_path_trie_is_a_map.

Definition c39_ops : list (op N) :=
  [([], [97; 98], 1); ([], [97], 2); ([[97]], [98], 3); ([[97; 98]], [98], 4); ([], [97; 98], 5); ([[122]], [98], 6)].
Example c39_latin : Forall op_latin c39_ops.
Proof. repeat constructor. Qed.
Example c39_contents : contents c39_ops = [([[97; 98]], 1); ([[97]], 2); ([[97]; [98]], 3); ([[97; 98]; [98]], 4)].
Proof. vm_compute. reflexivity. Qed.
Example c39_example :
  match insert_ops (E:=rerr) c39_ops with
  | Ok t => trie_iter t = [([97], 2); ([97; 98], 1)] /\ trie_get (E:=rerr) t [[97]; [98]] = Ok (Some 3) /\ trie_get (E:=rerr) t [[97; 98]] = Ok (Some 1)
       /\ trie_get (E:=rerr) t [[122]; [98]] = Ok None
  | _ => False
  end.
Proof. vm_compute. ssplit; reflexivity. Qed.
