(** Property C165: the files of a compressed image (cmd_compress.rs, compress.rs of the
    desktop application). Any calls may be made by the crate ciso. *)
From Verif Require Import M_Base M_Util M_Read M_Img M_Dev M_Parts.
From Verif Require Import S_Dev S_Parts.
From Verif Require Import P_Vm P_Parts.
From Coq Require Import Init.Byte.
Local Open Scope N_scope.

(** C165, partial: if all calls succeed, every file has the contents that they ask for,
    unless the flush failed when its writer was dropped. This holds for all files whose
    successful writes are carried out. Missing: failures of this flush. *)
Theorem c165_flushed_partial :
  forall S (R : raw S) bytes create cs ps u, writes_or_fails R bytes -> (forall i s, create i = Ok s -> bytes s = []) ->
  write_parts R create cs = (ps, Ok u) ->
  Forall2 (fun p f => exists s flushed, p = Dropped s flushed /\ (flushed = true -> bytes s = f)) ps (asked_for cs).
Proof. exact (fun S R bytes create cs ps u HR HC => c165_lemma R create bytes HR HC cs ps u). Qed.
Print Assumptions c165_flushed_partial.

(** On a disk that does not fail, all calls succeed, and the files are complete, whether
    they are closed or not. *)
Theorem c165_complete :
  forall cs, in_order [] cs -> write_parts raw_file (fun _ => Ok []) cs = (map (fun f => Dropped f true) (asked_for cs), Ok tt).
Proof. exact c165_whole_lemma. Qed.
Print Assumptions c165_complete.

(** Up to 8191 bytes that are written at once succeed on every disk, whatever it does. *)
Theorem c165_silent :
  forall S (R : raw S) create s pos b, create 0%nat = Ok s -> len b < 8192 ->
  exists s' flushed, write_parts R create [Create; Put 0 pos b] = ([Dropped s' flushed], Ok tt)
    /\ write_parts R create [Create; Put 0 pos b; Close 0] = ([Dropped s' flushed], Ok tt).
Proof. exact (fun S R => c165_silent_lemma R). Qed.
Print Assumptions c165_silent.

(** Whatever happens, all files are closed in the end. *)
Theorem c165_closed :
  forall S (R : raw S) create cs p, In p (fst (write_parts R create cs)) -> exists s flushed, p = Dropped s flushed.
Proof. exact (fun S R => c165_closed_lemma R). Qed.
Print Assumptions c165_closed.

(** Two files; the first one is begun with 9000 bytes, written behind its end, then at its
    start, and closed. A disk for 5000 bytes is noticed. *)
Definition c165_calls : list call :=
  [Create; Put 0 0 (fill 9000 x41); Put 0 9004 [x68]; Create; Put 0 0 [x42; x43]; Put 1 2 [x69]; Close 0; Put 1 0 [x70]].
Definition c165_run (k : N) : list (part (list byte * N)) * res ioerr unit :=
  write_parts (crash_raw (IoOther 28)) (fun _ => Ok ([], k)) c165_calls.
Example c165_example :
  in_order [] c165_calls
  /\ map (fun p => match p with Dropped s true => Some (len (fst s), slice (fst s) 0 3) | _ => None end) (fst (c165_run 20000))
     = [Some (9005, [x42; x43; x41]); Some (3, [x70; x00; x69])]
  /\ snd (c165_run 20000) = Ok tt /\ snd (c165_run 5000) = Err (IoOther 28)
  /\ map (fun p => match p with Dropped s _ => true | Opened _ => false end) (fst (c165_run 5000)) = [true].
Proof. split; [cbn; intuition|]. vm_all. Qed.

(** Finding: compressing reports success although the disk was full: dropping a
    [BufWriter] ignores errors, and nothing flushes it before. *)
Theorem c165_success_means_complete_files_refuted :
  exists cs k ps, in_order [] cs /\ write_parts (crash_raw (IoOther 28)) (fun _ => Ok ([], k)) cs = (ps, Ok tt)
    /\ asked_for cs = [[x68; x69]] /\ ps = [Dropped ([], 0) false].
Proof. exists [Create; Put 0 0 [x68; x69]; Close 0], 0, [Dropped ([], 0) false]. split; [cbn; intuition|]. vm_all. Qed.
Print Assumptions c165_success_means_complete_files_refuted.
