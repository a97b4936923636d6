(** Specification vocabulary for the sizes of buffers (C160). *)
From Verif Require Import M_Base M_Util M_Layout M_Read S_Read S_Check.
From Coq Require Import Init.Byte.
Local Open Scope N_scope.

(** The devices answer requests for up to [k] bytes alike. *)
Definition same_up_to (k : N) (d d' : dev) : Prop := forall o n, n <= k -> d o n = d' o n.
(** The computation fills no buffer of more than [k] bytes: it gives the same result
    on all devices that agree on smaller ones. *)
Definition buffers_up_to {A} (k : N) (f : dev -> A) : Prop := forall d d', same_up_to k d d' -> f d = f d'.
