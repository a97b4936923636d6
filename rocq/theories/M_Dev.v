(** Model of the write side of xdvdfs-core/src/blockdev.rs, of the copiers of
    write/fs/xdvdfs.rs and write/fs/stdfs.rs, and of [std::io::BufWriter]. *)
From Verif Require Import M_Base M_Util M_Layout M_Read M_Img.
From Coq Require Import Init.Byte.
Local Open Scope N_scope.

(** ** In-memory devices *)

(** [buf[off..off+b.len()].copy_from_slice(b)] for a range that is in bounds. *)
Definition put (buf : list byte) (off : N) (b : list byte) : list byte :=
  firstn (N.to_nat off) buf ++ b ++ skipn (N.to_nat (off + len b)) buf.

(** blockdev.rs:77-85, 98-106 [write] for [Box<[u8]>] and [[u8]]; usize is 64 bits
    wide, so the conversion of the offset succeeds. *)
Definition mem_write (buf : list byte) (off : N) (b : list byte) : list byte * res ioerr unit :=
  if (len buf <=? off) || (len buf - off <? len b) then (buf, Err OutOfBounds)
  else (put buf off b, Ok tt).

(** blockdev.rs:73-112 [BlockDeviceWrite for Box<[u8]>], [[u8]]. *)
Definition mem_wdev : wdev (list byte) := mkWdev _ mem_write (fun buf => (buf, Ok (len buf))).

(** stdfs.rs:104-159 [copy_file_in] of a host file with contents [src] into a
    memory buffer. [dest] is shadowed by the slice of the requested range
    before it is indexed with [output_offset + bytes_read]. The subtraction
    [len - output_offset] panics in a debug build; in a release build it wraps
    and the slicing panics instead. [Read::read] on the buffered reader fills the
    slice except at the end of the file. *)
Definition slice_copy (src dest : list byte) (input output size : N) : list byte * res ioerr N :=
  if len dest <? output then (dest, Panic POverflow)
  else
    let size := N.min size (len dest - output) in
    let data := slice src input size in
    let dest := put dest output data in
    let from := output + len data in
    if size <? from then (dest, Panic PIndex)
    else (put dest (output + from) (fill (size - from) x00), Ok size).

Definition std_copy_mem (t : ftree) (p : path) (dest : list byte) (input output size : N) : list byte * res ioerr N :=
  match lookup_tree p t with
  | Some (FFile b) => slice_copy b dest input output size
  | Some (FDir _) => (dest, Err IS_A_DIRECTORY)
  | None => (dest, Err NOT_FOUND)
  end.
Definition std_mem_fs (t : ftree) : fsys (list byte) := mkFsys _ (std_read_dir t) (std_copy_mem t).

(** ** The default copier *)

(** xdvdfs.rs:26-30 [XDVDFSFilesystemError]. *)
Inductive xerr :=
| FilesystemReadErr (e : rerr)
| BlockDevReadErr (e : ioerr)
| BlockDevWriteErr (e : ioerr).

Definition COPY_BUFFER : N := 1048576.

(** xdvdfs.rs:80-105 [RWCopier::copy], the loop. The u64 sums do not overflow for
    ranges that end below 2^64. *)
Fixpoint rw_copy_loop {D} (fuel : nat) (src : dev) (W : wdev D) (off_in off_out size copied : N) (dest : D) : D * res xerr N :=
  if copied <? size then
    match fuel with
    | O => (dest, OutOfFuel)
    | S fuel =>
        let to_copy := N.min COPY_BUFFER (size - copied) in
        match map_err BlockDevReadErr (src (off_in + copied) to_copy) with
        | Ok b =>
            let (dest, r) := dev_write W dest (off_out + copied) b in
            match map_err BlockDevWriteErr r with
            | Ok _ => rw_copy_loop fuel src W off_in off_out size (copied + to_copy) dest
            | Err e => (dest, Err e)
            | Panic p => (dest, Panic p)
            | OutOfFuel => (dest, OutOfFuel)
            end
        | Err e => (dest, Err e)
        | Panic p => (dest, Panic p)
        | OutOfFuel => (dest, OutOfFuel)
        end
    end
  else (dest, let* _ := rassert (copied =? size) in Ok copied).

(** The loop runs at most once per started buffer; [copied] never exceeds [size]. *)
Definition rw_copy {D} (src : dev) (W : wdev D) (off_in off_out size : N) (dest : D) : D * res xerr N :=
  rw_copy_loop (S (N.to_nat (size / COPY_BUFFER))) src W off_in off_out size 0 dest.

(** xdvdfs.rs:126-182 [StdIOCopier::copy] from a file holding [src], at base offset
    [base] for an [OffsetWrapper]: [std::io::copy] of at most [size] bytes stops
    silently at the end of the source. *)
Definition std_io_copy (src : list byte) (base : N) (off_in off_out size : N) (dest : list byte) : list byte * res xerr N :=
  let b := slice src (base + off_in) size in (file_write dest off_out b, Ok (len b)).

(** ** Buffered files *)

(** A seekable output: positioned writes and a length. *)
Record raw (S : Type) := mkRaw { raw_write : S -> N -> list byte -> S * res ioerr unit; raw_len : S -> N }.
Arguments raw_write {S}.
Arguments raw_len {S}.

Definition raw_file : raw (list byte) := mkRaw _ (fun s off b => (file_write s off b, Ok tt)) len.

(** [std::io::BufWriter]: the inner file, its cursor, and the bytes not yet
    written. *)
Record bufw (S : Type) := mkBufw { bw_in : S; bw_pos : N; bw_buf : list byte }.
Arguments mkBufw {S}.
Arguments bw_in {S}.
Arguments bw_pos {S}.
Arguments bw_buf {S}.

Section BufWriter.
Context {S : Type} (R : raw S) (cap : N).

(** [BufWriter::flush_buf]; after an error the buffer is kept. *)
Definition bw_flush (w : bufw S) : bufw S * res ioerr unit :=
  match bw_buf w with
  | [] => (w, Ok tt)
  | b => let (s, r) := raw_write R (bw_in w) (bw_pos w) b in
         match r with
         | Ok _ => (mkBufw s (bw_pos w + len b) [], Ok tt)
         | _ => (mkBufw s (bw_pos w) b, r)
         end
  end.

(** Writing to the inner file at its cursor. *)
Definition bw_raw (w : bufw S) (b : list byte) : bufw S * res ioerr unit :=
  let (s, r) := raw_write R (bw_in w) (bw_pos w) b in
  match r with
  | Ok _ => (mkBufw s (bw_pos w + len b) (bw_buf w), Ok tt)
  | _ => (mkBufw s (bw_pos w) (bw_buf w), r)
  end.

Definition bw_then (x : bufw S * res ioerr unit) (k : bufw S -> bufw S * res ioerr unit) : bufw S * res ioerr unit :=
  match snd x with Ok _ => k (fst x) | r => (fst x, r) end.

(** [BufWriter::seek]: flushes, then seeks. *)
Definition bw_seek (w : bufw S) (off : N) : bufw S * res ioerr unit :=
  bw_then (bw_flush w) (fun w => (mkBufw (bw_in w) off (bw_buf w), Ok tt)).

(** [BufWriter::write_all]: small writes are appended to the buffer; otherwise
    the buffer is flushed if they do not fit, and writes of at least the capacity
    bypass it. *)
Definition bw_write_all (w : bufw S) (b : list byte) : bufw S * res ioerr unit :=
  let spare := cap - len (bw_buf w) in
  if len b <? spare then (mkBufw (bw_in w) (bw_pos w) (bw_buf w ++ b), Ok tt)
  else bw_then (if spare <? len b then bw_flush w else (w, Ok tt)) (fun w =>
         if cap <=? len b then bw_raw w b
         else (mkBufw (bw_in w) (bw_pos w) (bw_buf w ++ b), Ok tt)).

(** blockdev.rs:261-277 [BlockDeviceWrite for BufWriter<File>]: [len] asks the
    inner file. *)
Definition bufw_wdev : wdev (bufw S) :=
  mkWdev _ (fun w off b => bw_then (bw_seek w off) (fun w => bw_write_all w b))
         (fun w => (w, Ok (raw_len R (bw_in w)))).

(** [std::io::copy] into a buffered file proceeds in pieces that are either
    written through the buffer or, after a flush, directly to the file. *)
Inductive piece := Through (b : list byte) | Direct (b : list byte).
Definition piece_bytes (p : piece) : list byte := match p with Through b | Direct b => b end.
Definition bw_piece (w : bufw S) (p : piece) : bufw S * res ioerr unit :=
  match p with
  | Through b => bw_write_all w b
  | Direct b => bw_then (bw_flush w) (fun w => bw_raw w b)
  end.
Definition bw_pieces (l : list piece) (w : bufw S) : bufw S * res ioerr unit :=
  fold_left (fun x p => bw_then x (fun w => bw_piece w p)) l (w, Ok tt).

(** Dropping the writer flushes it; errors are ignored. *)
Definition bw_drop (w : bufw S) : S := bw_in (fst (bw_flush w)).

(** stdfs.rs:76-102 [copy_file_in] of a host file into a buffered file; [split]
    says how [std::io::copy] divides the contents. *)
Definition bw_copy (split : list byte -> list piece) (src : list byte) (w : bufw S) (input output size : N) : bufw S * res ioerr N :=
  let b := slice src input size in
  let (w, r) := bw_then (bw_seek w output) (bw_pieces (split b)) in
  (w, match r with Ok _ => Ok (len b) | Err e => Err e | Panic p => Panic p | OutOfFuel => OutOfFuel end).

Definition std_buf_fs (split : list byte -> list piece) (t : ftree) : fsys (bufw S) :=
  mkFsys _ (std_read_dir t)
    (fun p w input output size =>
       match lookup_tree p t with
       | Some (FFile b) => bw_copy split b w input output size
       | Some (FDir _) => (w, Err IS_A_DIRECTORY)
       | None => (w, Err NOT_FOUND)
       end).
End BufWriter.

(** A new buffered writer on an empty, truncated file. *)
Definition bw_new {S} (s : S) : bufw S := mkBufw s 0 [].

(** cmd_pack.rs:68-99 [cmd_pack_path] on a directory: the writer is dropped
    without being flushed explicitly, and its result is the result of packing. *)
Definition pack_buffered {S} (R : raw S) (cap : N) (split : list byte -> list piece) (fuel : nat) (m : build) (t : ftree) (s : S)
    : S * res werr unit :=
  let '((w, _), r) := create_xdvdfs_image fuel m (bufw_wdev R cap) (std_buf_fs R cap split t) (bw_new s, []) in
  (bw_drop R w, r).
