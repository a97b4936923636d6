(** Specification vocabulary for devices and copiers. *)
From Verif Require Import M_Base M_Util M_Read M_Img M_Dev S_Img.
From Coq Require Import Init.Byte.
Local Open Scope N_scope.

(** The device serves the bytes [b] from offset [off], in any division. *)
Definition supplies (d : dev) (off : N) (b : list byte) : Prop :=
  forall i n, i + n <= len b -> 0 < n -> d (off + i) n = Ok (slice b i n).

(** [dest'] is [dest] with the bytes [b] stored at [off]; bytes past the end count
    as zero. *)
Definition stored_at (dest dest' : list byte) (off : N) (b : list byte) : Prop :=
  forall i, byte_at dest' i = if (off <=? i) && (i <? off + len b) then byte_at b (i - off) else byte_at dest i.

(** Nothing outside the range changes. *)
Definition untouched (dest dest' : list byte) (off size : N) : Prop :=
  forall i, ~ (off <= i < off + size) -> byte_at dest' i = byte_at dest i.

(** Copying a whole file into memory stores its bytes, if they fit. *)
Definition mem_copies (fs : fsys (list byte)) (t : ftree) : Prop :=
  forall p b buf off, at_path t p (FFile b) -> b = [] \/ off + len b <= len buf ->
    exists buf', copy_in fs p buf 0 off (len b) = (buf', Ok (len b)) /\ len buf' = len buf /\ stored_at buf buf' off b.

(** Copying a whole file into a buffered file seeks and writes its bytes, in any
    pieces. *)
Definition buf_copies (cap : N) (fs : fsys (bufw (list byte))) (t : ftree) : Prop :=
  forall p b w off, at_path t p (FFile b) ->
    exists l, concat (map piece_bytes l) = b /\
      copy_in fs p w 0 off (len b) =
        (let (w', r) := bw_then (bw_seek raw_file w off) (bw_pieces raw_file cap l) in
         (w', match r with Ok _ => Ok (len b) | Err e => Err e | Panic q => Panic q | OutOfFuel => OutOfFuel end)).

(** A file that accepts only the next [k] bytes. *)
Definition crash_raw (e : ioerr) : raw (list byte * N) :=
  mkRaw _ (fun s off b => let (s', ok) := crash_write s off b in (s', if ok then Ok tt else Err e)) (fun s => len (fst s)).

(** Every write that succeeds is carried out; others may do anything. [bytes] are the
    contents of the file. *)
Definition writes_or_fails {S} (R : raw S) (bytes : S -> list byte) : Prop :=
  (forall s off b s' u, raw_write R s off b = (s', Ok u) -> bytes s' = file_write (bytes s) off b) /\ (forall s, raw_len R s = len (bytes s)).
