(** Specification vocabulary for the path trie: a map from paths to values. *)
From Verif Require Import M_Base M_Img M_Trie.
Local Open Scope N_scope.

(** Characters that index the array of children. *)
Definition latin (s : str) : Prop := Forall (fun c => c < 256) s.
Definition latin_path (p : path) : Prop := Forall latin p.

(** Insertions: directory, name, value. *)
Definition op (T : Type) : Type := path * str * T.

Definition op_latin {T} (o : op T) : Prop := match o with (d, s, _) => latin_path d /\ latin s end.

Definition path_eq_dec : forall p q : path, {p = q} + {p <> q} := list_eq_dec (list_eq_dec N.eq_dec).

Fixpoint value {T} (p : path) (m : list (path * T)) : option T :=
  match m with
  | [] => None
  | (q, v) :: m => if path_eq_dec p q then Some v else value p m
  end.
Definition known {T} (p : path) (m : list (path * T)) : Prop := p = [] \/ value p m <> None.

(** The first value of a path stays; a directory must be known before something
    can be inserted into it. *)
Definition after {T} (m : list (path * T)) (o : op T) : list (path * T) :=
  match o with
  | (d, s, v) =>
      match d, value d m, value (d ++ [s]) m with
      | _ :: _, None, _ => m
      | _, _, Some _ => m
      | _, _, None => m ++ [(d ++ [s], v)]
      end
  end.
Definition contents {T} (l : list (op T)) : list (path * T) := fold_left after l [].

(** One insertion into the trie, as xdvdfs.rs:243-269 and remap.rs:257-280 do it:
    find the directory, then insert the name. *)
Definition insert_op {T E} (t : trie T) (o : op T) : res E (trie T) :=
  match o with
  | (d, s, v) =>
      let* x := lookup_subdir t d in
      match x with
      | None => Ok t
      | Some sub => let* sub := insert_tail sub s v (fun x => Ok x) in Ok (store_subtree t d sub)
      end
  end.
Definition insert_ops {T E} (l : list (op T)) : res E (trie T) := foldM insert_op trie_default l.
