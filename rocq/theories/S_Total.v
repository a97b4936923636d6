(** Specification vocabulary for commands on untrusted images (C127, C128). *)
From Verif Require Import M_Base M_Util M_Layout M_Read M_Cli S_Read S_Cycle.
From Coq Require Import Init.Byte.
Local Open Scope N_scope.

(** Two slashes or more, and nothing else. *)
Definition only_slashes (path : str) : Prop := exists n, path = repeat 47 (S (S n)).
Definition panics {E A} (r : res E A) : Prop := exists p, r = Panic p.

(** The game partition of the file [file] and its root table. *)
Definition partition (file : list byte) (d : dev) (root : region) : Prop :=
  exists v, open_image file = Ok d /\ read_volume d = Ok v /\ root = v_root v.
(** The table that [path] selects. *)
Definition table_at (d : dev) (root : region) (path : str) (r : region) : Prop :=
  path = [47] /\ r = root
  \/ exists segs e, path_of segs path /\ leads d root segs e /\ is_dir e = true /\ r = region_of e.
(** The search for [path] does not run in circles. *)
Definition straight (d : dev) (root : region) (path : str) : Prop := forall segs, path_of segs path -> ~ circles d root segs.
(** A command ends. *)
Definition ends {B E A} (f : nat -> B * res E A) : Prop := exists b r, r <> OutOfFuel /\ returns f (b, r).
