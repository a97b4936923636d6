(** Specification vocabulary for messages (C134). *)
From Verif Require Import M_Base.

(** Different things are shown differently. *)
Definition tells_apart {A} (show : A -> str) : Prop := forall x y, show x = show y -> x = y.
(** [s] ends in [t]. *)
Definition ends_with (s t : str) : Prop := exists a, s = a ++ t.
