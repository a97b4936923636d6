(** Specification vocabulary for the image paths of mapping rules (C135). *)
From Verif Require Import M_Base M_Util M_Layout M_Read M_Img M_Trie M_Remap S_Img S_Trie S_Remap.
Local Open Scope N_scope.

(** The names in a text: the longest runs of characters other than '/'. *)
Inductive names_of : str -> path -> Prop :=
| no_nil : names_of [] []
| no_slash s p : names_of s p -> names_of (47 :: s) p
| no_run u s p : u <> [] -> ~ In 47 u -> (s = [] \/ exists s', s = 47 :: s') -> names_of s p -> names_of (u ++ s) (u :: p).

(** A text without the dots it starts with. *)
Definition undotted (s t : str) : Prop := exists dots, s = dots ++ t /\ Forall (eq 46) dots /\ forall t', t <> 46 :: t'.

(** Names as they occur in a file system. *)
Definition ordinary (p : path) : Prop := Forall (fun s => s <> [] /\ ~ In 47 s) p.

(** A template whose literal characters are not opening braces and whose captures
    have none either. *)
Definition braceless (caps : N -> option str) (l : list item) : Prop :=
  Forall (fun i => match i with Lit c => c <> 123 | Hole n => n < usize_modulus /\ ~ In 123 (filled caps [Hole n]) end) l.

(** The names of a path with '/' between them. *)
Fixpoint slashed (p : path) : str :=
  match p with
  | [] => []
  | [s] => s
  | s :: p => s ++ 47 :: slashed p
  end.
