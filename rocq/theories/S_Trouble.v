(** Specification vocabulary for unpacking in the browser while calls fail (C169). *)
From Verif Require Import M_Base M_Util M_Layout M_Read M_Img M_Dev M_Cli M_Unpack M_Host M_Web M_Trouble S_Read S_Img S_Cli S_Unpack S_Flaky.
From Coq Require Import Init.Byte.
Local Open Scope N_scope.

(** The image file does not change, but reads of it may fail at any time. *)
Definition only_fails (U : trouble) (file : list byte) : Prop := forall n, fails_more (u_reads U n) (file_dev file).
(** There is a volume at one of the known places only. *)
Definition one_partition (file : list byte) : Prop :=
  forall o o' v v', In o XDVD_OFFSETS -> In o' XDVD_OFFSETS ->
  read_volume (offset_dev (file_dev file) o) = Ok v -> read_volume (offset_dev (file_dev file) o') = Ok v' -> o = o'.
(** Nothing fails. *)
Definition no_trouble (U : trouble) (file : list byte) : Prop := (forall n, u_calls U n = true) /\ forall n, u_reads U n = file_dev file.

(** The outcome [x] is [y], or an error after the first messages of [y]. *)
Definition same_or_stopped {W} (x y : W * list event * res uerr unit) : Prop :=
  x = y \/ exists e rest, snd x = Err e /\ snd (fst y) = snd (fst x) ++ rest.

(** From [h] to [h'], some entries of [t] have appeared below [dest]: whole ones, and new
    files that are still empty. *)
Definition partly (dest : list str) (t : ftree) (h h' : host) : Prop :=
  forall q, h' q = h q
  \/ exists p t', p <> [] /\ q = dest ++ p /\ at_path t p t'
     /\ (h' q = Some (as_node t') \/ h q = None /\ is_fdir t' = false /\ h' q = Some (HFile [])).
