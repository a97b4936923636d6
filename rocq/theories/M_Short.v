(** Model of write/fs/stdfs.rs on hosts whose [read] gives fewer bytes than were asked
    for, as it may (std::io::Read, POSIX), or fails. *)
From Verif Require Import M_Base M_Util M_Layout M_Read M_Img M_Dev.
From Coq Require Import Init.Byte.
Local Open Scope N_scope.

(** What a call of the host does: it gives at least one byte, unless the file is at its
    end, and at most [max]; or it fails. *)
Inductive answer := Gives (max : N) | Fails (e : ioerr).
(** The answer to each call, counted from 0. *)
Definition schedule : Type := N -> answer.
(** [read] of a file at position [pos] with a buffer of [cap] bytes. *)
Definition sys_read (a : answer) (file : list byte) (pos cap : N) : res ioerr (list byte) :=
  match a with
  | Gives max => Ok (slice file pos (N.min cap (N.max 1 max)))
  | Fails e => Err e
  end.

(** stdfs.rs:99. *)
Definition BUFFER : N := 1048576.
(** [std::io::copy] from [BufReader<Take<File>>]: one buffer after the other is filled by
    one call each and written, until the limit or a call that gives nothing. [k] calls
    have been made, [left] is what the limit allows. A call that was interrupted is
    repeated and not counted. [fuel] never runs out (every call gives a byte). *)
Fixpoint io_copy (fuel : nat) (S : schedule) (file : list byte) (k pos left : N) (out : list byte) : N * list byte * res ioerr N :=
  match fuel with
  | O => (k, out, OutOfFuel)
  | Datatypes.S fuel =>
      if left =? 0 then (k, out, Ok (len out))
      else match sys_read (S k) file pos (N.min BUFFER left) with
           | Ok [] => (k + 1, out, Ok (len out))
           | Ok b => io_copy fuel S file (k + 1) (pos + len b) (left - len b) (out ++ b)
           | Err e => (k + 1, out, Err e)
           | Panic p => (k + 1, out, Panic p)
           | OutOfFuel => (k + 1, out, OutOfFuel)
           end
  end.
(** The destination, and the calls so far. *)
Definition counted : Type := list byte * N.
(** stdfs.rs:83-102 [copy_file_in] into a file. *)
Definition short_copy_file (S : schedule) (t : ftree) (p : path) (s : counted) (input output size : N) : counted * res ioerr N :=
  match lookup_tree p t with
  | Some (FFile b) =>
      let '(k, bytes, r) := io_copy (Datatypes.S (length b)) S b (snd s) input size [] in
      ((file_write (fst s) output bytes, k), r)
  | Some (FDir _) => (s, Err IS_A_DIRECTORY)
  | None => (s, Err NOT_FOUND)
  end.
Definition short_fs (S : schedule) (t : ftree) : fsys counted := mkFsys _ (std_read_dir t) (short_copy_file S t).
Definition short_wdev : wdev counted :=
  mkWdev _ (fun s off b => ((file_write (fst s) off b, snd s), Ok tt)) (fun s => (s, Ok (len (fst s)))).

(** stdfs.rs:104-159 [copy_file_in] into memory: one call of [Read::read], which takes
    what one call of the host gives; the rest is zero. As [slice_copy]. *)
Definition short_slice_copy (a : answer) (src dest : list byte) (input output size : N) : list byte * res ioerr N :=
  if len dest <? output then (dest, Panic POverflow)
  else
    let size := N.min size (len dest - output) in
    match (if size =? 0 then Ok [] else sys_read a src input (N.max BUFFER size)) with
    | Ok got =>
        let data := slice got 0 size in
        let dest := put dest output data in
        let from := output + len data in
        if size <? from then (dest, Panic PIndex)
        else (put dest (output + from) (fill (size - from) x00), Ok size)
    | Err e => (dest, Err e)
    | Panic p => (dest, Panic p)
    | OutOfFuel => (dest, OutOfFuel)
    end.
Definition short_copy_mem (a : answer) (t : ftree) (p : path) (dest : list byte) (input output size : N) : list byte * res ioerr N :=
  match lookup_tree p t with
  | Some (FFile b) => short_slice_copy a b dest input output size
  | Some (FDir _) => (dest, Err IS_A_DIRECTORY)
  | None => (dest, Err NOT_FOUND)
  end.
Definition short_mem_fs (a : answer) (t : ftree) : fsys (list byte) := mkFsys _ (std_read_dir t) (short_copy_mem a t).

(** blockdev.rs:226-240 [BlockDeviceRead] of a file: [read_exact] makes one call after the
    other, [k] so far; it fails if one gives nothing. *)
Fixpoint read_exact (fuel : nat) (S : schedule) (file : list byte) (k pos left : N) (got : list byte) : res ioerr (list byte) :=
  match fuel with
  | O => OutOfFuel
  | Datatypes.S fuel =>
      if left =? 0 then Ok got
      else match sys_read (S k) file pos left with
           | Ok [] => Err UnexpectedEof
           | Ok b => read_exact fuel S file (k + 1) (pos + len b) (left - len b) (got ++ b)
           | Err e => Err e
           | Panic p => Panic p
           | OutOfFuel => OutOfFuel
           end
  end.
(** The schedule of each request is arbitrary. *)
Definition short_dev (S : N -> N -> schedule) (file : list byte) : dev := fun offset n =>
  read_exact (Datatypes.S (N.to_nat n)) (S offset n) file 0 offset n [].
