(** Property C168: the files that compressing in the browser writes (xdvdfs-web
    fs/ciso.rs, ops/browser.rs). Any calls may be made by the crate ciso. *)
From Verif Require Import M_Base M_Util M_Read M_Img M_Dev M_Web M_Parts M_Streams.
From Verif Require Import S_Dev S_Parts S_Streams.
From Verif Require Import P_Vm P_Streams.
From Coq Require Import Init.Byte.
Local Open Scope N_scope.

(** If all calls succeed and all files are closed, the files have the contents that the
    calls ask for, whatever was in them before. *)
Theorem c168_complete :
  forall W cs files u, Forall substantial cs -> Forall (fun o => o = false) (left_open [] cs) ->
  write_streams W cs = (files, Ok u) -> files = asked_for cs.
Proof. exact c168_all_lemma. Qed.
Print Assumptions c168_complete.

(** If all calls succeed, closed files are complete, and the others are as before. *)
Theorem c168_each :
  forall W cs files u, Forall substantial cs -> write_streams W cs = (files, Ok u) ->
  length files = length (asked_for cs)
  /\ forall i f, nth_error files i = Some f ->
       nth_error (left_open [] cs) i = Some false /\ nth_error (asked_for cs) i = Some f
       \/ nth_error (left_open [] cs) i = Some true /\ f = w_old W i.
Proof. exact c168_lemma. Qed.
Print Assumptions c168_each.

(** If a call fails, this holds for the calls before it: no file is half written. *)
Theorem c168_no_half_files :
  forall W cs files r, Forall substantial cs -> write_streams W cs = (files, r) -> (forall u, r <> Ok u) ->
  exists cs1 c cs2, cs = cs1 ++ c :: cs2
    /\ forall i f, nth_error files i = Some f ->
       nth_error (left_open [] cs1) i = Some false /\ nth_error (asked_for cs1) i = Some f
       \/ nth_error (left_open [] cs1) i = Some true /\ f = w_old W i.
Proof. exact c168_failed_lemma. Qed.
Print Assumptions c168_no_half_files.

(** Unless the browser fails, all calls succeed. *)
Theorem c168_succeeds :
  forall W cs, fair W -> in_order [] cs -> exists files, write_streams W cs = (files, Ok tt).
Proof. exact c168_fair_lemma. Qed.
Print Assumptions c168_succeeds.

(** Two files, one of which existed before; the [n]th call fails. *)
Definition c168_calls : list call :=
  [Create; Put 0 0 [x41; x42]; Put 0 3 [x43]; Create; Put 0 0 [x44]; Close 0; Put 1 0 [x45]; Close 1].
Definition c168_weather (n : nat) : weather :=
  mkWeather (fun _ => true) (fun _ => true) (fun k => negb (Nat.eqb k n)) (fun i => if Nat.eqb i 1 then [x68; x69] else []).
Example c168_example :
  Forall substantial c168_calls /\ in_order [] c168_calls /\ left_open [] c168_calls = [false; false]
  /\ write_streams (c168_weather 100) c168_calls = ([[x44; x42; x00; x43]; [x45]], Ok tt)
  /\ write_streams (c168_weather 6) c168_calls = ([[x44; x42; x00; x43]; [x68; x69]], Err (IoOther 2000))
  /\ write_streams (c168_weather 4) c168_calls = ([[]; [x68; x69]], Err (IoOther 2000)).
Proof.
  split; [repeat constructor; discriminate|]. split; [cbn; intuition|]. vm_all.
Qed.

(** Finding: if a file cannot be closed (such as when the disk is full) or opened for
    writing, no error is reported; the task panics. *)
Theorem c168_failures_are_reported_refuted :
  exists W1 W2 cs, in_order [] cs
    /\ write_streams W1 cs = ([[]], Panic PUnwrap) /\ (forall i, w_creates W1 i = true) /\ (forall i, w_opens W1 i = true)
    /\ write_streams W2 cs = ([], Panic PUnwrap) /\ (forall i, w_creates W2 i = true) /\ (forall i, w_calls W2 i = true).
Proof.
  exists (c168_weather 2), (mkWeather (fun _ => true) (fun _ => false) (fun _ => true) (fun _ => [])), [Create; Put 0 0 [x41]; Close 0].
  split; [cbn; intuition|]. repeat split.
Qed.
Print Assumptions c168_failures_are_reported_refuted.
