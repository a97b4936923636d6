(** Model of write/fs/sector_linear.rs: the device and reader used to compress. *)
From Verif Require Import M_Base M_Util M_Layout M_Read M_Img M_Dev M_Trie M_Xfs.
From Coq Require Import Init.Byte.
Local Open Scope N_scope.

(** sector_linear.rs:10-15 [SectorLinearBlockContents]. *)
Inductive block := BRaw (data : list byte) | BFile (p : path) (idx : N) | BEmpty.

(** sector_linear.rs:17-20: a BTreeMap from sectors to contents, as its sorted list
    of entries. *)
Definition lin := list (N * block).

Fixpoint lin_get (k : N) (s : lin) : option block :=
  match s with
  | [] => None
  | (k', b) :: s => match k ?= k' with Eq => Some b | Lt => None | Gt => lin_get k s end
  end.

(** [BTreeMap::insert]: the new map and the previous value. *)
Fixpoint lin_insert (k : N) (b : block) (s : lin) : lin * option block :=
  match s with
  | [] => ([(k, b)], None)
  | (k', b') :: s' =>
      match k ?= k' with
      | Eq => ((k, b) :: s', Some b')
      | Lt => ((k, b) :: s, None)
      | Gt => let (s'', o) := lin_insert k b s' in ((k', b') :: s'', o)
      end
  end.

(** sector_linear.rs:35-49 [len_impl]. *)
Definition lin_len (s : lin) : N :=
  match rev s with
  | [] => 0
  | (k, b) :: _ => k * SECTOR_SIZE + match b with BEmpty => 0 | _ => SECTOR_SIZE end
  end.

(** sector_linear.rs:64-86, the loop of [write]. *)
Fixpoint lin_write_loop (fuel : nat) (sector : N) (buf : list byte) (s : lin) : lin * res ioerr unit :=
  match buf with
  | [] => (s, Ok tt)
  | _ =>
      match fuel with
      | O => (s, OutOfFuel)
      | S fuel =>
          let chunk := slice buf 0 2048 in
          let (s, old) := lin_insert sector (BRaw (chunk ++ fill (2048 - len chunk) x00)) s in
          match old with
          | Some _ => (s, Panic PUnimplemented)
          | None => lin_write_loop fuel (sector + 1) (skipn (N.to_nat 2048) buf) s
          end
      end
  end.

(** sector_linear.rs:51-94 [BlockDeviceWrite]. *)
Definition lin_wdev : wdev lin :=
  mkWdev _
    (fun s off b => if off mod SECTOR_SIZE =? 0 then lin_write_loop (length b) (off / SECTOR_SIZE) b s else (s, Panic PAssert))
    (fun s => (s, Ok (lin_len s))).

(** sector_linear.rs:133-142, the loop of [copy_file_in]; [n] sectors are left. *)
Fixpoint lin_file_loop (n : nat) (src : path) (sector i : N) (s : lin) : lin * bool :=
  match n with
  | O => (s, true)
  | S n =>
      let (s, old) := lin_insert (sector + i) (BFile src i) s in
      match old with
      | Some _ => (s, false)
      | None => lin_file_loop n src sector (i + 1) s
      end
  end.

(** sector_linear.rs:115-146 [copy_file_in]. *)
Definition lin_copy (src : path) (dest : lin) (input output size : N) : lin * res ioerr N :=
  if negb (input =? 0) then (dest, Panic PAssert)
  else if negb (output mod SECTOR_SIZE =? 0) then (dest, Panic PAssert)
  else
    let span := size / SECTOR_SIZE + (if 0 <? size mod SECTOR_SIZE then 1 else 0) in
    let (dest, ok) := lin_file_loop (N.to_nat span) src (output / SECTOR_SIZE) 0 dest in
    (dest, if ok then Ok size else Panic PUnimplemented).

(** sector_linear.rs:96-107: listings are those of the wrapped file system. *)
Definition lin_fs {D} (fs : fsys D) : fsys lin := mkFsys _ (read_dir fs) lin_copy.

(** sector_linear.rs:154-163, 189-217 [CisoSectorInput::read_sector] with sectors of 2048
    bytes (the sector size of the ciso crate). *)
Definition read_sector (fs : fsys (list byte)) (s : lin) (sector : N) : res ioerr (list byte) :=
  match lin_get sector s with
  | None | Some BEmpty => Ok (fill 2048 x00)
  | Some (BRaw data) => let* _ := rassert (len data =? 2048) in Ok data
  | Some (BFile p i) =>
      let (buf, r) := copy_in fs p (fill 2048 x00) (2048 * i) 0 2048 in
      let* n := r in
      let* _ := rassert (n =? 2048) in
      Ok buf
  end.

(** cmd_compress.rs:104-131: packing onto the device; afterwards the sectors are
    read through the file system. *)
Definition compress_layout {D} (fuel : nat) (m : build) (fs : fsys D) : prog lin unit :=
  create_xdvdfs_image fuel m lin_wdev (lin_fs fs).

(** ... from an image: the cache is filled while packing and used while reading. *)
Definition compress_from_volume (fuel : nat) (m : build) (d : dev) (v : volume) : prog lin cache :=
  do (c, dirtree) <- xfs_dir_loop fuel fuel d v trie_default [[]] [];
  do _ <- create_rest m lin_wdev (mkFsys _ (fun _ => Err (IoOther 1002)) lin_copy) dirtree;
  pret c.
