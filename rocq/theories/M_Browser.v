(** The browser back end of xdvdfs-web when calls of the browser fail: packing a directory
    (fs/mod.rs, ops/browser.rs:22-41, 97-107), with the messages that the page gets.
    Without failures this is [web_pack] of M_Web; quotas are failing calls. *)
From Verif Require Import M_Base M_Util M_Layout M_Read M_Img M_Dev M_Xfs M_Check M_Cli M_Unpack M_Host M_Web M_Gui M_Jobs.
From Coq Require Import Init.Byte.
Local Open Scope N_scope.

(** What the browser does. [f_lists]: directories that can be listed; [f_sizes]: files whose
    size can be asked for while a directory is read; [f_opens] and [f_closes]: whether
    createWritable and close succeed; [f_calls]: whether the n-th call on the stream or for
    a file succeeds; [f_now]: what is in a file when it is copied, if it is still there. *)
Record fate := mkFate {
  f_lists : path -> bool;
  f_sizes : path -> bool;
  f_opens : bool;
  f_closes : bool;
  f_calls : nat -> bool;
  f_now : path -> option (list byte)
}.

(** A stream and the number of calls so far. *)
Notation clocked := (web * nat)%type.
(** fs/mod.rs:35-57: seek and write, both with an error. *)
Definition br_write (F : fate) (s : clocked) (off : N) (b : list byte) : clocked * res ioerr unit :=
  let (w, n) := s in
  if f_calls F n then let (w, r) := web_write None w off b in ((w, S n), r)
  else ((w, S n), Err (IoOther 2000)).
Definition br_wdev (F : fate) : wdev clocked := mkWdev _ (br_write F) (fun s => (s, Ok (ws_len (fst s)))).

(** fs/mod.rs:98-119 [populate]: every directory is listed. *)
Fixpoint br_lists (F : fate) (p : path) (t : ftree) : bool :=
  match t with
  | FFile _ => true
  | FDir cs => f_lists F p && forallb (fun c => br_lists F (p ++ [fst c]) (snd c)) cs
  end.
(** fs/mod.rs:130-161 [read_dir]. *)
Definition br_read_dir (F : fate) (t : ftree) (p : path) : res ioerr (list fentry) :=
  let* es := web_read_dir t p in
  if forallb (fun e => match f_type e with TFile => f_sizes F (p ++ [f_name e]) | TDirectory => true end) es then Ok es
  else Err (IoOther 2005).
(** fs/mod.rs:165-207 [FilesystemCopier<FSWriteWrapper>]: the stream is moved, the file
    is asked for, and its blob is written. *)
Definition br_copy (F : fate) (t : ftree) (p : path) (s : clocked) (input output size : N) : clocked * res ioerr N :=
  match web_walk t p with
  | None => (s, Err (IoOther 2002))
  | Some (FDir _) => (s, Err (IoOther 2003))
  | Some (FFile _) =>
      let (w, n) := s in
      if f_calls F n then
        match f_now F p with
        | None => ((w, S n), Err (IoOther 2006))
        | Some b =>
            let blob := slice b input size in
            if len blob =? size then let (s, r) := br_write F (w, S n) output blob in (s, let* _ := r in Ok (len blob))
            else ((w, S n), Panic PAssert)
        end
      else ((w, S n), Err (IoOther 2000))
  end.
Definition br_fs (F : fate) (t : ftree) : fsys clocked := mkFsys _ (br_read_dir F t) (br_copy F t).

(** ops/browser.rs:22-41 [pack_image_impl], 103-106, and fs/mod.rs:24-32 and 262-270, where
    listing the source, opening the stream and closing it are unwrapped: the bytes of the
    output file, the messages for the page, and the result. [say] gives the texts of errors. *)
Definition br_pack (say : werr -> str) (fuel : nat) (m : build) (F : fate) (t : ftree) (old : list byte) : list byte * list bmsg * res str unit :=
  if negb (br_lists F [] t) then (old, web_pack_job (Panic PUnwrap) [] (Ok tt), Panic PUnwrap)
  else if negb (f_opens F) then (old, [ChangeState (Packing PackingImage)], Panic PUnwrap)
  else match create_xdvdfs_image fuel m (br_wdev F) (br_fs F (populate t)) ((web_new, O), []) with
       | ((w, evs), Ok _) =>
           if f_closes F then (ws_data (fst w), web_pack_job (Ok tt) evs (Ok tt), Ok tt)
           else (old, ChangeState (Packing PackingImage) :: map UpdateProgress evs ++ [ChangeState (Packing WaitingForFlush)], Panic PUnwrap)
       | ((w, evs), Err e) => (old, web_pack_job (Ok tt) evs (Err (say e)), Err (say e))
       | ((w, evs), Panic p) => (old, web_pack_job (Ok tt) evs (Panic p), Panic p)
       | ((w, evs), OutOfFuel) => (old, web_pack_job (Ok tt) evs OutOfFuel, OutOfFuel)
       end.
