(** Model of the pages of xdvdfs-web: packing.rs, compress.rs and unpacking.rs. A page
    is a state that messages update; its view says which buttons there are and
    whether they can be used. Handles of the browser and paths of the desktop are
    represented by their names, counters (u32) are unbounded, and texts are left
    out. *)
From Verif Require Import M_Base M_Util M_Layout M_Read M_Img M_Cli M_Unpack M_Exiso M_Host.
From Coq Require Import Init.Byte.
Local Open Scope N_scope.

(** picker/mod.rs:33-37 [PickerResult]; packing.rs:93-97 [InputHandleType]. *)
Inductive pick := PickFile (name : str) | PickDir (name : str).
Inductive itype := IDir | IFile.

(** packing.rs:31-36 and compress.rs:10-15 [ImageCreationState]. *)
Inductive creating := CreatingFilesystem | PackingImage | WaitingForFlush.
(** packing.rs:48-60, compress.rs:27-40 [WorkflowState]; the page for packing has no
    [Compressing]. *)
Inductive bstate := SelectInputType | SelectInput | SelectOutput | Packing (c : creating) | Compressing | Finished | Error (e : str).
(** The derived order, up to the contents. *)
Definition rank (s : bstate) : N :=
  match s with SelectInputType => 0 | SelectInput => 1 | SelectOutput => 2 | Packing _ => 3 | Compressing => 4 | Finished => 5 | Error _ => 6 end.
Definition is_packing (s : bstate) : bool := match s with Packing _ => true | _ => false end.

(** packing.rs:113-128, compress.rs:103-114 [ImageBuilderWorkflow]. *)
Record builder := mkBuilder {
  b_state : bstate; b_type : option itype; b_input : option pick; b_output : option str; b_count : N; b_done : N
}.
Definition builder_default : builder := mkBuilder SelectInputType None None None 0 0.

(** compress.rs:42-47 [CisoProgressInfo]. *)
Inductive cprogress := SectorCount (n : N) | SectorsDone (n : N) | CompressionFinished.
(** packing.rs:150-157, compress.rs:138-146 [WorkflowMessage]. *)
Inductive bmsg :=
| UpdateProgress (e : event) | UpdateCompression (c : cprogress)
| SetInputType (t : itype) | SetInput (p : pick) | SetOutput (name : str) | ChangeState (s : bstate).

(** packing.rs:164-182, compress.rs:153-171 [reset_state]. *)
Definition reset (n : N) (b : builder) : builder :=
  mkBuilder (b_state b) (if n =? 0 then None else b_type b) (if n <=? 1 then None else b_input b)
    (if n <=? 2 then None else b_output b) (if n <=? 3 then 0 else b_count b) (if n <=? 3 then 0 else b_done b).

(** packing.rs:313-361, compress.rs:290-355 [update]: the new state, and the source
    and destination of the job that is started. *)
Definition builder_update (b : builder) (m : bmsg) : res Empty_set (builder * option (pick * str)) :=
  match m with
  | SetInputType t => let b := reset 0 b in Ok (mkBuilder SelectInput (Some t) (b_input b) (b_output b) (b_count b) (b_done b), None)
  | SetInput p => let b := reset 1 b in Ok (mkBuilder SelectOutput (b_type b) (Some p) (b_output b) (b_count b) (b_done b), None)
  | SetOutput o =>
      let b := reset 2 b in
      let* p := unwrap (b_input b) in
      Ok (mkBuilder (Packing CreatingFilesystem) (b_type b) (b_input b) (Some o) (b_count b) (b_done b), Some (p, o))
  | UpdateProgress e =>
      Ok (match e with
          | EDiscoveredDirectory n => mkBuilder (b_state b) (b_type b) (b_input b) (b_output b) (b_count b + n) (b_done b)
          | EFinishedPacking => mkBuilder (Packing WaitingForFlush) (b_type b) (b_input b) (b_output b) (b_count b) (b_done b)
          | EFileCount n => mkBuilder (b_state b) (b_type b) (b_input b) (b_output b) n (b_done b)
          | EFileAdded _ _ => mkBuilder (b_state b) (b_type b) (b_input b) (b_output b) (b_count b) (b_done b + 1)
          | _ => b
          end, None)
  | UpdateCompression c =>
      Ok (match c with
          | SectorCount n => mkBuilder (b_state b) (b_type b) (b_input b) (b_output b) n 0
          | SectorsDone n => mkBuilder (b_state b) (b_type b) (b_input b) (b_output b) (b_count b) (b_done b + n)
          | CompressionFinished => mkBuilder (b_state b) (b_type b) (b_input b) (b_output b) (b_count b) (b_count b)
          end, None)
  | ChangeState s => Ok (mkBuilder s (b_type b) (b_input b) (b_output b) (b_count b) (b_done b), None)
  end.

(** What the user sees: the buttons for the type, the input and the output if they
    are shown, with the kind of the dialog; whether they can be used; the progress
    in percent. *)
Inductive kind := PackPage | CompressPage.
Record view := mkView { v_enabled : bool; v_input : option itype; v_output : option (option str); v_percent : N }.

Definition pick_name (p : pick) : str := match p with PickFile n | PickDir n => n end.
(** packing.rs:247-257: the suggested name of the output. *)
Definition suggestion (b : builder) : res Empty_set (option str) :=
  match b_input b with
  | None => Ok None
  | Some p =>
      let* n := unwrap (file_name (pick_name p)) in
      Ok (Some (with_extension n [120; 105; 115; 111; 46; 105; 115; 111] (match b_type b with Some IDir => true | _ => false end)))
  end.
Definition percent (done count : N) : N := if count =? 0 then 0 else 100 * done / count.
(** packing.rs:204-307, compress.rs:187-284 [view]. *)
Definition builder_view (k : kind) (b : builder) : res Empty_set view :=
  let* i := if 1 <=? rank (b_state b) then let* t := unwrap (b_type b) in Ok (Some t) else Ok None in
  let* o := if 2 <=? rank (b_state b)
            then match k with PackPage => let* s := suggestion b in Ok (Some s) | CompressPage => Ok (Some None) end
            else Ok None in
  Ok (mkView (negb (is_packing (b_state b))) i o (percent (b_done b) (b_count b))).

(** ** unpacking.rs *)
(** unpacking.rs:10-22 [WorkflowState]. *)
Inductive ustate := USelectInput | USelectOutput | Unpacking | UFinished | UError (e : str).
Definition urank (s : ustate) : N := match s with USelectInput => 0 | USelectOutput => 1 | Unpacking => 2 | UFinished => 3 | UError _ => 4 end.
(** unpacking.rs:30-41 [ImageUnpackingWorkflow]. *)
Record unpacker := mkUnpacker { u_state : ustate; u_input : option str; u_output : option str; u_count : N; u_done : N }.
Definition unpacker_default : unpacker := mkUnpacker USelectInput None None 0 0.
(** unpacking.rs:62-68 [WorkflowMessage]. *)
Inductive umsg := UUpdateProgress (e : event) | USetInput (p : pick) | USetOutput (name : str) | UChangeState (s : ustate).
(** unpacking.rs:75-89 [reset_state]. *)
Definition ureset (n : N) (u : unpacker) : unpacker :=
  mkUnpacker (u_state u) (if n =? 0 then None else u_input u) (if n <=? 1 then None else u_output u) (if n <=? 2 then 0 else u_count u) (if n <=? 2 then 0 else u_done u).
(** unpacking.rs:178-214 [update]; the input handle moves to the job. *)
Definition unpacker_update (u : unpacker) (m : umsg) : res Empty_set (unpacker * option (str * str)) :=
  match m with
  | USetInput (PickFile n) => let u := ureset 1 u in Ok (mkUnpacker USelectOutput (Some n) (u_output u) (u_count u) (u_done u), None)
  | USetInput (PickDir _) => Ok (u, None)
  | USetOutput o =>
      let u := ureset 2 u in
      let* n := unwrap (u_input u) in
      Ok (mkUnpacker Unpacking None (Some o) (u_count u) (u_done u), Some (n, o))
  | UUpdateProgress (EFileCount n) => Ok (mkUnpacker (u_state u) (u_input u) (u_output u) n (u_done u), None)
  | UUpdateProgress (EFileAdded _ _) => Ok (mkUnpacker (u_state u) (u_input u) (u_output u) (u_count u) (u_done u + 1), None)
  | UUpdateProgress _ => Ok (u, None)
  | UChangeState s => Ok (mkUnpacker s (u_input u) (u_output u) (u_count u) (u_done u), None)
  end.
(** unpacking.rs:104-172 [view]: whether the buttons can be used, whether there is
    one for the output, and the progress. *)
Record uview := mkUview { uv_enabled : bool; uv_output : bool; uv_percent : N }.
Definition unpacker_view (u : unpacker) : uview :=
  mkUview (match u_state u with Unpacking => false | _ => true end) (1 <=? urank (u_state u)) (percent (u_done u) (u_count u)).

(** ** Progress of compression *)
(** ciso::write::ProgressInfo (an external crate), as far as it is used. *)
Inductive cevent := CSectorCount (n : N) | CSectorFinished | CFinished | COther.
(** xdvdfs-desktop compress.rs:59-81: the sectors that are not reported yet, and the
    message. *)
Definition desk_report (pending : N) (e : cevent) : N * option cprogress :=
  match e with
  | CSectorCount n => (pending, Some (SectorCount n))
  | CSectorFinished => if (pending + 1) mod 739 =? 0 then (0, Some (SectorsDone (pending + 1))) else (pending + 1, None)
  | CFinished => (pending, Some CompressionFinished)
  | COther => (pending, None)
  end.
(** xdvdfs-web ops/browser.rs:70-82. *)
Definition web_report (e : cevent) : option cprogress :=
  match e with
  | CSectorCount n => Some (SectorCount n)
  | CSectorFinished => Some (SectorsDone 1)
  | CFinished => Some CompressionFinished
  | COther => None
  end.
(** The messages in their order. *)
Fixpoint desk_reports (pending : N) (l : list cevent) : list cprogress :=
  match l with
  | [] => []
  | e :: l => let (pending, m) := desk_report pending e in
              match m with Some m => m :: desk_reports pending l | None => desk_reports pending l end
  end.
Fixpoint web_reports (l : list cevent) : list cprogress :=
  match l with
  | [] => []
  | e :: l => match web_report e with Some m => m :: web_reports l | None => web_reports l end
  end.
