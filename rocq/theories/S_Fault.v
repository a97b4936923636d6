(** Specification vocabulary for failures of the host (C99). *)
From Verif Require Import M_Base M_Host.
Local Open Scope N_scope.

(** The same file system, on a host on which no call fails by itself. *)
Definition unfailing (w : world) : world := mkWorld (w_fs w) None.

(** If the command succeeds although calls may fail, then none did: it has done
    what it does on a host without failures. *)
Definition honest {E A} (f : world -> world * res E A) : Prop :=
  forall w w' a, f w = (w', Ok a) -> f (unfailing w) = (unfailing w', Ok a).
