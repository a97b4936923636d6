(** Specification vocabulary for files that are no images (C139). *)
From Verif Require Import M_Base M_Read M_Cli M_Host S_Cli.
From Coq Require Import Init.Byte.
Local Open Scope N_scope.

(** No partition with a volume is found in the file. *)
Definition no_image (file : list byte) : Prop := forall d v, open_image file = Ok d -> read_volume d <> Ok v.

(** The path [s] denotes a file with these bytes. *)
Definition names_file (h : host) (cwd : list str) (s : str) (p : list str) (file : list byte) : Prop :=
  canonicalize h cwd s = Ok p /\ h p = Some (HFile file).

(** Nothing differs, except that the file at [o] is empty now. *)
Definition only_empties (o : list str) (h h' : host) : Prop := forall q, h' q = h q \/ (q = o /\ h' q = Some (HFile [])).
