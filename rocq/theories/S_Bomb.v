(** Specification vocabulary for what an image contains compared to its size (C147). *)
From Verif Require Import M_Base M_Img.
Local Open Scope N_scope.

(** Number of entries of a tree, without the tree itself. *)
Fixpoint count_entries (t : ftree) : N :=
  match t with
  | FFile _ => 0
  | FDir cs => len cs + fold_right (fun c k => count_entries (snd c) + k) 0 cs
  end.
