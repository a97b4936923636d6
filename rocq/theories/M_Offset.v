(** Model of the write side and of [Seek] of [OffsetWrapper]
    (xdvdfs-core/src/blockdev.rs). *)
From Verif Require Import M_Base M_Util M_Layout M_Read M_Img.
From Coq Require Import Init.Byte.
Local Open Scope N_scope.

(** blockdev.rs:196-211 [BlockDeviceWrite for OffsetWrapper]: writes are shifted, the
    length is that of the inner device. As for reads, the u64 sum does not overflow
    for offsets below 2^63. *)
Definition offset_wdev {D} (W : wdev D) (base : N) : wdev D :=
  mkWdev _ (fun d off b => dev_write W d (off + base) b) (dev_len W).

(** [std::io::SeekFrom]. *)
Inductive seek_from := SeekStart (n : N) | SeekEnd (z : Z) | SeekCurrent (z : Z).
(** [Seek for File] with a file of length [len] and the cursor at [pos]: the new
    position, which is also what is returned. Positions before the start are errors;
    positions are not bounded. *)
Definition file_seek (len pos : N) (s : seek_from) : res ioerr N :=
  match s with
  | SeekStart n => Ok n
  | SeekEnd z => let p := (Z.of_N len + z)%Z in if (p <? 0)%Z then Err (IoOther 22) else Ok (Z.to_N p)
  | SeekCurrent z => let p := (Z.of_N pos + z)%Z in if (p <? 0)%Z then Err (IoOther 22) else Ok (Z.to_N p)
  end.
(** blockdev.rs:213-225 [Seek for OffsetWrapper] over a file. *)
Definition offset_seek (base len pos : N) (s : seek_from) : res ioerr N :=
  match s with
  | SeekStart n => file_seek len pos (SeekStart (base + n))
  | s => file_seek len pos s
  end.
