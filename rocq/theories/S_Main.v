(** Specification vocabulary for whole programs (C132, C133). *)
From Verif Require Import M_Base M_Util M_Layout M_Read M_Cli M_Unpack M_Host M_Main S_Fault.
From Coq Require Import Init.Byte.
Local Open Scope N_scope.

(** The process has ended and reports success, or a failure. *)
Definition exits_ok (p : process) : Prop := p_status p = Some 0.
Definition exits_failed (p : process) : Prop := p_status p = Some 1.

(** The commands that only read. *)
Definition reader (c : cmd) : Prop :=
  match c with Ls _ _ _ | Tree _ | Md5 _ _ | Checksum _ | Info _ _ => True | _ => False end.
(** The commands that are modelled. *)
Definition modelled (t : toplevel) : Prop := forall f, t <> Core (inl (OtherCmd f)).
(** The same process on a host on which no call fails by itself. *)
Definition without_failures (p : process) : process := mkProcess (unfailing (p_world p)) (p_out p) (p_error p) (p_status p).
(** [name] is a file of the host that holds [b]. *)
Definition is_file (w : world) (cwd : list str) (name : str) (b : list byte) : Prop :=
  exists p, canonicalize (w_fs w) cwd name = Ok p /\ w_fs w p = Some (HFile b).
