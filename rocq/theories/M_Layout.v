(** Model of xdvdfs-core/src/layout.rs. *)
From Verif Require Import M_Base M_Util.
From Coq Require Import Init.Byte.

(** ** bincode fixed-width little-endian integers (with_fixint_encoding,
    with_little_endian). *)
Fixpoint le (n : nat) (x : N) : list byte :=
  match n with
  | O => []
  | S n' => n2b (x mod 256) :: le n' (x / 256)
  end.

Fixpoint unle (l : list byte) : N :=
  match l with
  | [] => 0
  | b :: l' => (b2n b + 256 * unle l')%N
  end.

(** layout.rs:13 [VOLUME_HEADER_MAGIC] = b"MICROSOFT*XBOX*MEDIA". *)
Definition VOLUME_HEADER_MAGIC : list byte :=
  map n2b [77; 73; 67; 82; 79; 83; 79; 70; 84; 42; 88; 66; 79; 88; 42; 77; 69; 68; 73; 65]%N.

(** layout.rs:17-23 [DiskRegion] (u32, u32). [DirectoryEntryTable]
    (layout.rs:28-33) only wraps it. *)
Record region := mkRegion { r_sector : N; r_size : N }.

(** layout.rs:36-48 [VolumeDescriptor]. *)
Record volume := mkVolume {
  v_magic0 : list byte;       (* [u8; 0x14] *)
  v_root : region;
  v_filetime : N;             (* u64 *)
  v_unused : list byte;       (* [u8; 0x7c8] *)
  v_magic1 : list byte        (* [u8; 0x14] *)
}.

(** layout.rs:82-91 [DirectoryEntryDiskData]; attributes (layout.rs:50-63) are
    the raw u8. *)
Record ddata := mkDdata { d_region : region; d_attrs : N; d_namelen : N }.

(** layout.rs:65-75 [DirectoryEntryDiskNode]; child offsets are u16. *)
Record dnode := mkDnode { d_left : N; d_right : N; d_dirent : ddata }.

(** layout.rs:93-100 [DirectoryEntryNode]; [e_name] is the 256-byte array. *)
Record dentry := mkDentry { e_node : dnode; e_name : list byte; e_offset : N }.

(** layout.rs:102-115 [DirectoryEntryData]. *)
Record edata := mkEdata { x_node : ddata; x_name : str }.

(** layout.rs:55-62 bits of [DirentAttributes]. *)
Definition attr_directory (a : N) : bool := N.testbit a 4.
Definition attr_archive (a : N) : bool := N.testbit a 5.
Definition ATTR_DIR : N := 16.       (* DirentAttributes(0).with_directory(true) *)
Definition ATTR_FILE : N := 32.      (* DirentAttributes(0).with_archive(true) *)

(** layout.rs:118-120, 140-142 [is_empty]. *)
Definition region_is_empty (r : region) : bool := (r_size r =? 0)%N.

(** layout.rs:124-131 [DiskRegion::offset]; u64 arithmetic cannot overflow here
    because both factors are below 2^32 and [offset < size < 2^32]. *)
Definition region_offset (r : region) (offset : N) : res rerr N :=
  if (r_size r <=? offset)%N then Err (SizeOutOfBounds offset (r_size r))
  else Ok (SECTOR_SIZE * r_sector r + offset)%N.

(** layout.rs:151-159 [VolumeDescriptor::new]. *)
Definition volume_new (root : region) : volume :=
  mkVolume VOLUME_HEADER_MAGIC root 0 (fill 0x7c8 x00) VOLUME_HEADER_MAGIC.

(** layout.rs:161-163 [is_valid]. *)
Definition volume_is_valid (v : volume) : bool :=
  bytes_eqb (v_magic0 v) VOLUME_HEADER_MAGIC && bytes_eqb (v_magic1 v) VOLUME_HEADER_MAGIC.

(** Serde order of [DiskRegion]: sector, size. *)
Definition region_ser (r : region) : list byte := le 4 (r_sector r) ++ le 4 (r_size r).
Definition region_de (b : list byte) : region := mkRegion (unle (slice b 0 4)) (unle (slice b 4 4)).

(** layout.rs:165-170 [VolumeDescriptor::serialize] (cannot fail: every field is
    fixed-size). *)
Definition volume_ser (v : volume) : list byte :=
  v_magic0 v ++ region_ser (v_root v) ++ le 8 (v_filetime v) ++ v_unused v ++ v_magic1 v.

(** layout.rs:172-177 [VolumeDescriptor::deserialize] on a 0x800-byte buffer
    (cannot fail: 20+8+8+1992+20 = 2048). *)
Definition volume_de (b : list byte) : volume :=
  mkVolume (slice b 0 20) (region_de (slice b 20 8)) (unle (slice b 28 8)) (slice b 36 1992) (slice b 2028 20).

(** layout.rs:377-384 [DirectoryEntryDiskNode::serialize]. *)
Definition ddata_ser (d : ddata) : list byte :=
  region_ser (d_region d) ++ le 1 (d_attrs d) ++ le 1 (d_namelen d).
Definition dnode_ser (d : dnode) : list byte :=
  le 2 (d_left d) ++ le 2 (d_right d) ++ ddata_ser (d_dirent d).

(** layout.rs:386-391 [DirectoryEntryDiskNode::deserialize] on a 0xe-byte buffer. *)
Definition dnode_de (b : list byte) : dnode :=
  mkDnode (unle (slice b 0 2)) (unle (slice b 2 2))
    (mkDdata (region_de (slice b 4 8)) (unle (slice b 12 1)) (unle (slice b 13 1))).

(** layout.rs:216-230 [DirectoryEntryDiskData::is_directory], [dirent_table]. *)
Definition is_directory (d : ddata) : bool := attr_directory (d_attrs d).
Definition dirent_table (d : ddata) : option region :=
  if is_directory d then Some (d_region d) else None.

(** ** Windows-1252 (encoding_rs [WINDOWS_1252], WHATWG index): bytes 0x80-0x9f;
    all other bytes are the code point of the same value. *)
Definition table_1252 : list N :=
  [0x20AC; 0x0081; 0x201A; 0x0192; 0x201E; 0x2026; 0x2020; 0x2021;
   0x02C6; 0x2030; 0x0160; 0x2039; 0x0152; 0x008D; 0x017D; 0x008F;
   0x0090; 0x2018; 0x2019; 0x201C; 0x201D; 0x2022; 0x2013; 0x2014;
   0x02DC; 0x2122; 0x0161; 0x203A; 0x0153; 0x009D; 0x017E; 0x0178]%N.

(** Decoder; every byte is mapped, so
    [decode_without_bom_handling_and_without_replacement] never returns [None]. *)
Definition decode_byte (b : byte) : N :=
  let n := b2n b in
  if (n <? 0x80)%N then n
  else if (n <? 0xA0)%N then nth (N.to_nat (n - 0x80)) table_1252 0%N
  else n.
Definition decode_1252 (l : list byte) : str := map decode_byte l.

Fixpoint find_index (c : N) (l : list N) (i : N) : option N :=
  match l with
  | [] => None
  | x :: l' => if (x =? c)%N then Some i else find_index c l' (i + 1)%N
  end.

(** Encoder for one character; [None] is [EncoderResult::Unmappable]. *)
Definition encode_char (c : N) : option byte :=
  if (c <? 0x80)%N then Some (n2b c)
  else if ((0xA0 <=? c) && (c <? 0x100))%N then Some (n2b c)
  else match find_index c table_1252 0x80 with Some n => Some (n2b n) | None => None end.

Fixpoint encode_1252 (s : str) : option (list byte) :=
  match s with
  | [] => Some []
  | c :: s' => match encode_char c, encode_1252 s' with
               | Some b, Some bs => Some (b :: bs)
               | _, _ => None
               end
  end.

(** layout.rs:303-307 [DirectoryEntryNode::name_slice]. *)
Definition name_slice (e : dentry) : list byte := slice (e_name e) 0 (d_namelen (d_dirent (e_node e))).

(** layout.rs:309-316 [name_str]. *)
Definition name_str (e : dentry) : str := decode_1252 (name_slice e).

(** write/mod.rs:13-22 [FileStructureError]; serialization cannot fail. *)
Inductive fserr :=
| WStringEncodingError
| FileNameTooLong
| DuplicateFileName
| TooManyDirectoryEntries
| FileTooLarge.

(** layout.rs:332-347 [encode_name] into a 256-byte buffer: unmappable input and
    a full buffer are both [StringEncodingError], and so is a length that does
    not fit u8. The result is the written prefix. *)
Definition encode_name (x : edata) : res fserr (list byte) :=
  match encode_1252 (x_name x) with
  | None => Err WStringEncodingError
  | Some bs => if (len bs <? 256)%N then Ok bs else Err WStringEncodingError
  end.

(** Rounding up to a multiple of four as in layout.rs:355-357. *)
Definition pad4 (n : N) : N := if (0 <? n mod 4)%N then (n + (4 - n mod 4))%N else n.

(** layout.rs:351-360 [len_on_disk]; the u32 sum is at most 272. *)
Definition len_on_disk (x : edata) : res fserr N :=
  let* bs := encode_name x in Ok (pad4 (0xe + len bs)).

(** layout.rs:371-375 [Ord for DirectoryEntryData]. *)
Definition edata_cmp (a b : edata) : comparison := cmp_ignore_case_utf8 (x_name a) (x_name b).
