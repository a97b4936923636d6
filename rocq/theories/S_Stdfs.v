(** Specification vocabulary for packing host directories (C77, C78). *)
From Verif Require Import M_Base M_Util M_Layout M_Read M_Img M_Host M_Exiso M_Stdfs S_Img S_Unpack.
From Coq Require Import Init.Byte.
Local Open Scope N_scope.

(** Below [root] the host has exactly the tree [t], and lists its directories in
    the order of the children. *)
Definition hosts (h : host) (ls : lister) (root : list str) (t : ftree) : Prop :=
  (forall p t', at_path t p t' -> h (root ++ p) = Some (as_node t'))
  /\ (forall p x, h (root ++ p) = Some x -> exists t', at_path t p t')
  /\ (forall p cs, at_path t p (FDir cs) -> ls (root ++ p) = map fst cs).

(** The path of the image: as given, or the name of the source directory with .iso
    added, in the working directory. *)
Definition output_for (p : list str) (image : option str) (i : str) : Prop :=
  image = Some i \/ image = None /\ exists d n, p = d ++ [n] /\ i = n ++ [46; 105; 115; 111].

(** Neither of two places is inside the other. *)
Definition apart (a b : list str) : Prop := ~ leads_to a b /\ ~ leads_to b a.
