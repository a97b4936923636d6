(** Specification vocabulary for images that are written again (C141). *)
From Verif Require Import M_Base M_Img M_Stdfs M_Host.
From Coq Require Import List.

(** Directories are listed as they are on the host, in any order. *)
Definition lists_host (h : host) (ls : lister) : Prop :=
  forall q, h q = Some HDir -> NoDup (ls q) /\ forall n, In n (ls q) <-> h (q ++ [n]) <> None.
