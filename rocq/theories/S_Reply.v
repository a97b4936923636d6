(** Specification vocabulary for the answers of the mounted image (C159). *)
From Verif Require Import M_Base M_Util M_Layout M_Read M_Fuse S_Read S_Img S_Sectors.
From Coq Require Import Init.Byte.
Local Open Scope N_scope.

(** A data reply or an error number. *)
Definition answer {E A} (r : res E A) : Prop := match r with Ok _ | Err _ => True | _ => False end.
(** A request that is answered, and the state after it. *)
Definition replies {B E A} (f : nat -> B * res E A) : Prop := exists b r, returns f (b, r) /\ answer r.

(** In one of the sectors of the table [r], a name crosses the end of the sector. *)
Definition crossing (d : dev) (r : region) : Prop :=
  exists k b, (k < table_sectors r)%nat /\ d (2048 * (r_sector r + N.of_nat k)) 2048 = Ok b /\ crosses b 0.
