(** Specification vocabulary for the jobs of the pages (C142). *)
From Verif Require Import M_Base M_Gui M_Jobs S_Gui.

(** Reports of a running job, then one of its end. *)
Definition ends_once (k : kind) (ms : list bmsg) : Prop := exists l m, ms = l ++ [m] /\ Forall (job_says k) l /\ job_ends m.
(** The page for unpacking after it has received messages. *)
Inductive ureceives : unpacker -> list umsg -> unpacker -> Prop :=
| urc_nil u : ureceives u [] u
| urc_cons u m u' ms u'' : unpacker_update u m = Ok (u', None) -> ureceives u' ms u'' -> ureceives u (m :: ms) u''.

(** The page shows the result. *)
Definition shows (r : res str unit) (s : bstate) : Prop :=
  match r with Ok _ => s = Finished | Err e => s = Error e | _ => False end.
Definition ushows (r : res str unit) (s : ustate) : Prop :=
  match r with Ok _ => s = UFinished | Err e => s = UError e | _ => False end.
(** What a command of the desktop application answers. *)
Definition answer (r : option str) : res str unit := match r with None => Ok tt | Some e => Err e end.
(** There is nothing that the user can do. *)
Definition stuck (k : kind) (b : builder) : Prop := forall v m, builder_view k b = Ok v -> ~ offers v m.
(** A result, of success or failure. *)
Definition calm_result {E A} (r : res E A) : Prop := match r with Ok _ | Err _ => True | _ => False end.
(** The result of a job in the browser: the first failure of its steps, which are opening the
    input and the output, packing, and compressing. *)
Definition web_pack_result (o : opening) (r : res str unit) : res str unit := match o with Ok _ => r | e => e end.
Definition web_compress_result (o : opening) (r c : res str unit) : res str unit := match o with Ok _ => match r with Ok _ => c | e => e end | e => e end.
