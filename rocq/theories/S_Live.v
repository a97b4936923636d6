(** Specification vocabulary for devices that change or fail while they are read (C162, C163). *)
From Verif Require Import M_Base M_Util M_Layout M_Read M_Live.
From Coq Require Import Init.Byte.
Local Open Scope N_scope.

(** Whatever happens, a request gives the bytes of [d] or an error. *)
Definition intermittent {S} (D : ldev S) (d : dev) : Prop :=
  forall s o n, snd (D s o n) = d o n \/ exists e, snd (D s o n) = Err e.
(** A request gives as many bytes as were asked for, whichever they are, or an error. *)
Definition answers {S} (D : ldev S) : Prop :=
  forall s o n, (exists b, snd (D s o n) = Ok b /\ len b = n) \/ exists e, snd (D s o n) = Err e.
(** The result of the computation on the device, in whatever state it is, is that of the same
    one on [d], or an I/O error. *)
Definition right_or_io {S A} (D : ldev S) (x : rd A) (r : res rerr A) : Prop :=
  forall s, snd (live D s x) = r \/ exists e, snd (live D s x) = Err (IOError e).

(** [n] sectors from sector [a] of the wrapped device on, one request each. *)
Definition each_sector (base a n : N) : list (N * N) := map (fun i => (2048 * (a + N.of_nat i) + base, 2048)) (seq 0 (N.to_nat n)).
