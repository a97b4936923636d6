(** Specification vocabulary for the positions that are read (C161). *)
From Verif Require Import M_Base M_Util M_Layout M_Read S_Read.
From Coq Require Import Init.Byte.
Local Open Scope N_scope.

(** The devices answer requests for data that ends at [k] at the latest alike. *)
Definition same_below (k : N) (d d' : dev) : Prop := forall o n, o + n <= k -> d o n = d' o n.
(** The computation reads nothing behind position [k]. *)
Definition reads_below {A} (k : N) (f : dev -> A) : Prop := forall d d', same_below k d d' -> f d = f d'.
(** What fits the fields of an entry. *)
Definition u32_region (r : region) : Prop := r_sector r < 4294967296 /\ r_size r < 4294967296.
(** For the rounding to floating point numbers: [k] significant bits, and the distance. *)
Definition significant (k x : N) : Prop := exists a e, a < 2 ^ k /\ x = a * 2 ^ e.
Definition dist (a b : N) : N := (a - b) + (b - a).
