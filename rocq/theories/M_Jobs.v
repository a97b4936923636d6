(** Model of the jobs that the pages of xdvdfs-web start: the messages that a page
    gets from a job, in the browser (ops/browser.rs) and in the desktop application
    (ops/tauri.rs, ops/tauri.js). What a job does is in M_Web and M_Desk; here, it is
    given by what it tells and by its result. *)
From Verif Require Import M_Base M_Img M_Gui.
Local Open Scope N_scope.

(** The last message. packing.rs:369-383, compress.rs:361-379 [create_image]; a panic
    ends the job without a message. *)
Definition told {A} (r : res str A) : list bmsg :=
  match r with
  | Ok _ => [ChangeState Finished]
  | Err e => [ChangeState (Error e)]
  | Panic _ | OutOfFuel => []
  end.
(** unpacking.rs:222-236 [unpack_image]. *)
Definition utold {A} (r : res str A) : list umsg :=
  match r with
  | Ok _ => [UChangeState UFinished]
  | Err e => [UChangeState (UError e)]
  | Panic _ | OutOfFuel => []
  end.

(** ** Browser *)
(** The result of opening the source (browser.rs:103-112, 204-222). *)
Definition opening : Type := res str unit.
(** browser.rs:22-41 [pack_image_impl], 97-114 [pack_image]; [evs] is what
    [create_xdvdfs_image] tells, and [r] its result. *)
Definition web_pack_job (o : opening) (evs : list event) (r : res str unit) : list bmsg :=
  match o with
  | Ok _ =>
      ChangeState (Packing PackingImage) :: map UpdateProgress evs
      ++ match r with Ok _ => [ChangeState (Packing WaitingForFlush)] | _ => [] end ++ told r
  | e => told e
  end.
(** browser.rs:43-92 [compress_image_impl], 188-223 [compress_image]; [cevs] and [c]
    are what the compressor tells, and its result. *)
Definition web_compress_job (o : opening) (evs : list event) (r : res str unit) (cevs : list cevent) (c : res str unit) : list bmsg :=
  match o with
  | Ok _ =>
      ChangeState (Packing PackingImage) :: map UpdateProgress evs
      ++ match r with
         | Ok _ => ChangeState Compressing :: map UpdateCompression (web_reports cevs)
                   ++ match c with Ok _ => [ChangeState (Packing WaitingForFlush)] | _ => [] end ++ told c
         | _ => told r
         end
  | e => told e
  end.
(** browser.rs:116-186 [unpack_image]. *)
Definition web_unpack_job (evs : list event) (r : res str unit) : list umsg := map UUpdateProgress evs ++ utold r.

(** ** Desktop *)
(** Values of JavaScript, as far as they are told apart. *)
Inductive jsvalue := JString (s : str) | JNull | JUndefined | JOther.
(** tauri.rs:59-65, 85-91, 127-133: the answer as a result. *)
Definition tauri_result (v : jsvalue) : res str unit :=
  match v with JString e => Err e | JNull | JUndefined => Ok tt | JOther => Panic PAssert end.
(** The value that [invoke] (tauri.js:9, 22, 38) gives for a command that returns
    [Option<String>], and so has no errors; none for a command that panics, as nothing
    answers. *)
Definition invoke {E} (r : res E (option str)) : option jsvalue :=
  match r with
  | Ok (Some e) => Some (JString e)
  | Ok None => Some JNull
  | Err _ | Panic _ | OutOfFuel => None
  end.
Definition answered (v : option jsvalue) : res str unit := match v with Some v => tauri_result v | None => OutOfFuel end.
(** tauri.rs:37-66 [pack_image]; [evs] is what the command emits. *)
Definition desk_pack_job {E} (evs : list event) (r : res E (option str)) : list bmsg :=
  ChangeState (Packing PackingImage) :: map UpdateProgress evs ++ told (answered (invoke r)).
(** tauri.rs:94-135 [compress_image]. *)
Definition desk_compress_job {E} (evs : list event) (cevs : list cevent) (r : res E (option str)) : list bmsg :=
  ChangeState (Packing PackingImage) :: map UpdateProgress evs
  ++ concat (map (fun c => [ChangeState Compressing; UpdateCompression c]) (desk_reports 0 cevs)) ++ told (answered (invoke r)).
(** tauri.rs:68-92 [unpack_image]. *)
Definition desk_unpack_job {E} (evs : list event) (r : res E (option str)) : list umsg :=
  UChangeState Unpacking :: map UUpdateProgress evs ++ utold (answered (invoke r)).

(** ** The percentage, with the numbers of the machine *)
(** packing.rs:206-210, compress.rs:189-193, unpacking.rs:106-110; u32. *)
Definition percent32 (m : build) (done count : N) : res Empty_set N :=
  if count =? 0 then Ok 0
  else let p := 100 * done in
       if p <? 2 ^ 32 then Ok (p / count)
       else match m with Debug => Panic POverflow | Release => Ok ((p mod 2 ^ 32) / count) end.
