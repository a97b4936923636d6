(** Model of [PathPrefixTree] (write/fs/mod.rs:188-318) and of the remaining
    functions of [PathVec] (write/fs/mod.rs:55-116). *)
From Verif Require Import M_Base M_Util M_Layout M_Read M_Img.
Local Open Scope N_scope.

(** fs/mod.rs:188-192. The array of 256 children is a function of the index; it is
    only used below 256. *)
Inductive trie (T : Type) : Type :=
| TNode (children : N -> option (trie T)) (record : option (T * trie T)).
Arguments TNode {T}.

Section Trie.
Context {T E : Type}.

Definition children (t : trie T) : N -> option (trie T) := let (ch, _) := t in ch.
Definition record (t : trie T) : option (T * trie T) := let (_, r) := t in r.

(** fs/mod.rs:224-231 [Default]. *)
Definition trie_default : trie T := TNode (fun _ => None) None.

(** [node.children[ch as usize]]. *)
Definition child (t : trie T) (c : N) : res E (option (trie T)) :=
  if c <? 256 then Ok (children t c) else Panic PIndex.

(** fs/mod.rs:240-243, the loop over the characters of one component. *)
Fixpoint descend (t : trie T) (s : str) {struct s} : res E (option (trie T)) :=
  match s with
  | [] => Ok (Some t)
  | c :: s =>
      let* o := child t c in
      match o with None => Ok None | Some t' => descend t' s end
  end.

(** fs/mod.rs:235-253 [lookup_node]. *)
Fixpoint lookup_node (t : trie T) (p : path) {struct p} : res E (option (trie T)) :=
  match p with
  | [] => Ok (Some t)
  | s :: p =>
      let* o := descend t s in
      match o with
      | None => Ok None
      | Some n => match p with
                  | [] => Ok (Some n)
                  | _ => match record n with None => Ok None | Some (_, sub) => lookup_node sub p end
                  end
      end
  end.

(** fs/mod.rs:277-292 [lookup_subdir]. *)
Fixpoint lookup_subdir (t : trie T) (p : path) {struct p} : res E (option (trie T)) :=
  match p with
  | [] => Ok (Some t)
  | s :: p =>
      let* o := descend t s in
      match o with
      | None => Ok None
      | Some n => match record n with None => Ok None | Some (_, sub) => lookup_subdir sub p end
      end
  end.

(** fs/mod.rs:308-311 [get]. *)
Definition trie_get (t : trie T) (p : path) : res E (option T) :=
  let* o := lookup_node t p in
  Ok (match o with Some n => match record n with Some (v, _) => Some v | None => None end | None => None end).

(** fs/mod.rs:294-306 [insert_tail]: returns a reference to the subtree of the
    record, through which the caller continues; [f] is what it does there. *)
Fixpoint insert_tail (t : trie T) (s : str) (v : T) (f : trie T -> res E (trie T)) {struct s} : res E (trie T) :=
  match s with
  | [] =>
      let (w, sub) := match record t with Some x => x | None => (v, trie_default) end in
      let* sub := f sub in Ok (TNode (children t) (Some (w, sub)))
  | c :: s =>
      let* o := child t c in
      let* t' := insert_tail (match o with Some t' => t' | None => trie_default end) s v f in
      Ok (TNode (fun c' => if c' =? c then Some t' else children t c') (record t))
  end.

(** fs/mod.rs:256-274 [lookup_node_mut]: changes made through the returned
    reference are modelled by storing the changed subtree back at the place that
    was looked up. *)
Fixpoint store_tail (t : trie T) (s : str) (g : trie T -> trie T) {struct s} : trie T :=
  match s with
  | [] => TNode (children t) (match record t with Some (w, sub) => Some (w, g sub) | None => None end)
  | c :: s =>
      match children t c with
      | None => t
      | Some t' => TNode (fun c' => if c' =? c then Some (store_tail t' s g) else children t c') (record t)
      end
  end.
Fixpoint store_subtree (t : trie T) (p : path) (new : trie T) {struct p} : trie T :=
  match p with
  | [] => new
  | s :: p => store_tail t s (fun sub => store_subtree sub p new)
  end.
End Trie.

(** Number of nodes reachable without entering a record. *)
Fixpoint trie_size {T} (t : trie T) : nat :=
  match t with
  | TNode ch _ => S (fold_right (fun c n => (match ch c with Some t' => trie_size t' | None => 0 end + n)%nat) 0%nat (map N.of_nat (seq 0 256)))
  end.

(** fs/mod.rs:205-213: the children pushed for a node, the last one on top. *)
Definition pushed {T} (name : str) (t : trie T) : list (str * trie T) :=
  flat_map (fun c => match children t c with Some t' => [(name ++ [c], t')] | None => [] end) (rev (map N.of_nat (seq 0 256))).

(** fs/mod.rs:194-222 [PPTIter::next], run to exhaustion. The head of [queue] is
    the top of the stack. *)
Fixpoint iter_loop {T} (fuel : nat) (queue : list (str * trie T)) : list (str * T) :=
  match fuel, queue with
  | S fuel, (name, n) :: queue =>
      (match record n with Some (v, _) => [(name, v)] | None => [] end) ++ iter_loop fuel (pushed name n ++ queue)
  | _, _ => []
  end.

(** fs/mod.rs:313-317 [iter]; the fuel is the number of nodes. *)
Definition trie_iter {T} (t : trie T) : list (str * T) := iter_loop (trie_size t) [([], t)].

(** ** PathVec *)

(** fs/mod.rs:75-77 [as_string]: [join] with slashes. *)
Fixpoint join_slash (l : list str) : str :=
  match l with
  | [] => []
  | [s] => s
  | s :: l => s ++ [SLASH] ++ join_slash l
  end.
Definition as_string (p : path) : str := SLASH :: join_slash p.

(** fs/mod.rs:79-83 [base]: the index expression panics for the root; the
    subtraction underflows first in a debug build. *)
Definition path_base {E} (m : build) (p : path) : res E path :=
  match p with
  | [] => match m with Debug => Panic POverflow | Release => Panic PIndex end
  | _ => Ok (removelast p)
  end.

(** fs/mod.rs:85-104 [suffix]. *)
Fixpoint path_suffix {E} (p prefix : path) : res E path :=
  match p, prefix with
  | [], _ => Ok []
  | c :: p, [] => let* l := path_suffix p [] in Ok (c :: l)
  | c :: p, c' :: prefix => let* _ := rassert (str_eqb c c') in path_suffix p prefix
  end.

(** fs/mod.rs:107-116 [FromIterator]. *)
Definition path_from_iter (l : list str) : path := filter (fun s => negb (match s with [] => true | _ => false end)) l.
