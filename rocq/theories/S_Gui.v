(** Specification vocabulary for the pages (C89-C92): histories of what a user and the
    running jobs do. *)
From Verif Require Import M_Base M_Img M_Unpack M_Gui.
Local Open Scope N_scope.

(** The user can use a button, and chooses something in its dialog. *)
Definition offers (v : view) (m : bmsg) : Prop :=
  v_enabled v = true
  /\ match m with
     | SetInputType _ => True
     | SetInput (PickFile _) => v_input v = Some IFile
     | SetInput (PickDir _) => v_input v = Some IDir
     | SetOutput _ => v_output v <> None
     | _ => False
     end.
(** What a job reports while it runs, and at its end. *)
Definition job_says (k : kind) (m : bmsg) : Prop :=
  match m with
  | UpdateProgress _ | ChangeState (Packing _) => True
  | UpdateCompression _ | ChangeState Compressing => k = CompressPage
  | _ => False
  end.
Definition job_ends (m : bmsg) : Prop := match m with ChangeState Finished | ChangeState (Error _) => True | _ => False end.

Definition started {A} (j : option A) (js : list A) : list A := match j with Some j => j :: js | None => js end.

(** States of a page with the running jobs, if the user does only what [ok] permits. *)
Inductive history (k : kind) (ok : list (pick * str) -> bmsg -> Prop) : builder -> list (pick * str) -> Prop :=
| h_start : history k ok builder_default []
| h_user b js v m b' j : history k ok b js -> builder_view k b = Ok v -> offers v m -> ok js m ->
    builder_update b m = Ok (b', j) -> history k ok b' (started j js)
| h_job b js m b' : history k ok b js -> js <> [] -> job_says k m -> builder_update b m = Ok (b', None) -> history k ok b' js
| h_end b js1 j js2 m b' : history k ok b (js1 ++ j :: js2) -> job_ends m -> builder_update b m = Ok (b', None) ->
    history k ok b' (js1 ++ js2).

(** The page cannot be shown, or something that the user can do panics. *)
Definition crashes (k : kind) (ok : list (pick * str) -> bmsg -> Prop) (b : builder) (js : list (pick * str)) : Prop :=
  (forall v, builder_view k b <> Ok v)
  \/ exists v m, builder_view k b = Ok v /\ offers v m /\ ok js m /\ forall x, builder_update b m <> Ok x.

(** All paths in a tree except for its root. *)
Definition entry_paths (t : ftree) (at_path : ftree -> path -> ftree -> Prop) (l : list path) : Prop :=
  NoDup l /\ forall p, In p l <-> p <> [] /\ exists t', at_path t p t'.

(** ** The page for unpacking *)
Definition uoffers (v : uview) (m : umsg) : Prop :=
  uv_enabled v = true /\ match m with USetInput (PickFile _) => True | USetOutput _ => uv_output v = true | _ => False end.
(** [l] are the messages caused by the user, the latest one first. *)
Inductive uhistory (ok : list umsg -> umsg -> Prop) : list umsg -> unpacker -> list (str * str) -> Prop :=
| uh_start : uhistory ok [] unpacker_default []
| uh_user l u js m u' j : uhistory ok l u js -> uoffers (unpacker_view u) m -> ok l m -> unpacker_update u m = Ok (u', j) ->
    uhistory ok (m :: l) u' (started j js)
| uh_job l u js e u' : uhistory ok l u js -> js <> [] -> unpacker_update u (UUpdateProgress e) = Ok (u', None) -> uhistory ok l u' js
| uh_state l u js u' : uhistory ok l u js -> js <> [] -> unpacker_update u (UChangeState Unpacking) = Ok (u', None) -> uhistory ok l u' js
| uh_end l u js1 j js2 s u' : uhistory ok l u (js1 ++ j :: js2) -> match s with UFinished | UError _ => True | _ => False end ->
    unpacker_update u (UChangeState s) = Ok (u', None) -> uhistory ok l u' (js1 ++ js2).
Definition ucrashes (ok : list umsg -> umsg -> Prop) (l : list umsg) (u : unpacker) : Prop :=
  exists m, uoffers (unpacker_view u) m /\ ok l m /\ forall x, unpacker_update u m <> Ok x.

(** ** Progress of compression *)
(** What compressing [n] sectors tells: the number, each of them, the end. *)
Definition compression (n : N) : list cevent := CSectorCount n :: repeat CSectorFinished (N.to_nat n) ++ [CFinished].
(** The page after it has received messages in their order; none of them starts a job. *)
Inductive receives : builder -> list bmsg -> builder -> Prop :=
| rc_nil b : receives b [] b
| rc_cons b m b' ms b'' : builder_update b m = Ok (b', None) -> receives b' ms b'' -> receives b (m :: ms) b''.
