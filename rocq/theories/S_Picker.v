(** Specification vocabulary for pages with dialogs (C150). *)
From Verif Require Import M_Base M_Img M_Unpack M_Gui M_Picker S_Gui.
From Coq Require Import List.
Local Open Scope N_scope.

(** States of a page with the open dialogs and the running jobs, if the user uses
    the page (not the dialogs) only when [may] permits it. *)
Inductive session (k : kind) (may : list dialog -> list (pick * str) -> Prop) : builder -> list dialog -> list (pick * str) -> Prop :=
| s_start : session k may builder_default [] []
| s_type b ds js v t b' : session k may b ds js -> may ds js -> builder_view k b = Ok v -> v_enabled v = true ->
    builder_update b (SetInputType t) = Ok (b', None) -> session k may b' (filter (mounted k b') ds) js
| s_click b ds js v x d : session k may b ds js -> may ds js -> builder_view k b = Ok v -> click k v x = Some d -> session k may b (d :: ds) js
| s_answer b ds1 d ds2 js c b' j : session k may b (ds1 ++ d :: ds2) js -> answer k b d c = Ok (b', j) ->
    session k may b' (filter (mounted k b') (ds1 ++ ds2)) (started j js)
| s_job b ds js m b' : session k may b ds js -> js <> [] -> job_says k m -> builder_update b m = Ok (b', None) -> session k may b' (filter (mounted k b') ds) js
| s_end b ds js1 j js2 m b' : session k may b ds (js1 ++ j :: js2) -> job_ends m -> builder_update b m = Ok (b', None) ->
    session k may b' (filter (mounted k b') ds) (js1 ++ js2).

Inductive usession (may : list dialog -> Prop) : unpacker -> list dialog -> list (str * str) -> Prop :=
| us_start : usession may unpacker_default [] []
| us_click u ds js x d : usession may u ds js -> may ds -> uclick (unpacker_view u) x = Some d -> usession may u (d :: ds) js
| us_answer u ds1 d ds2 js c u' j : usession may u (ds1 ++ d :: ds2) js -> uanswer u d c = Ok (u', j) ->
    usession may u' (filter (umounted u') (ds1 ++ ds2)) (started j js)
| us_job u ds js e u' : usession may u ds js -> js <> [] -> unpacker_update u (UUpdateProgress e) = Ok (u', None) -> usession may u' (filter (umounted u') ds) js
| us_state u ds js u' : usession may u ds js -> js <> [] -> unpacker_update u (UChangeState Unpacking) = Ok (u', None) -> usession may u' (filter (umounted u') ds) js
| us_end u ds js1 j js2 s u' : usession may u ds (js1 ++ j :: js2) -> match s with UFinished | UError _ => True | _ => False end ->
    unpacker_update u (UChangeState s) = Ok (u', None) -> usession may u' (filter (umounted u') ds) (js1 ++ js2).

(** Dialogs lock the page. *)
Definition modal {A} (ds : list dialog) (js : A) : Prop := ds = [].
(** ... and the user waits for the end of jobs. *)
Definition modal_patient {A} (ds : list dialog) (js : list A) : Prop := ds = [] /\ js = [].
Definition nothing_forbidden {A} (ds : list dialog) (js : A) : Prop := True.
