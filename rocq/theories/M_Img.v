(** Model of xdvdfs-core/src/write/img.rs, of the path type and file system
    traits of write/fs/mod.rs, and of growable file devices. *)
From Verif Require Import M_Base M_Util M_Layout M_Avl M_Sector M_Dirtab.
From Coq Require Import Init.Byte.
Local Open Scope N_scope.

(** fs/mod.rs:35-38 [PathVec]: the list of components. *)
Definition path := list str.

(** Derived [Ord] of [PathVec]. *)
Definition path_cmp : path -> path -> comparison := lex_cmp str_cmp.

(** fs/mod.rs:69-73 [from_base]. *)
Definition from_base (p : path) (s : str) : path := p ++ [s].

(** alloc::collections::BTreeMap keyed by [PathVec], as its sorted list of
    entries: [get], [insert] (replacing an existing value), [into_iter]. *)
Definition dmap (A : Type) := list (path * A).

Fixpoint map_get {A} (p : path) (m : dmap A) : option A :=
  match m with
  | [] => None
  | (q, a) :: m' => match path_cmp p q with Eq => Some a | Lt => None | Gt => map_get p m' end
  end.

Fixpoint map_insert {A} (p : path) (a : A) (m : dmap A) : dmap A :=
  match m with
  | [] => [(p, a)]
  | (q, b) :: m' => match path_cmp p q with
                    | Eq => (q, a) :: m'
                    | Lt => (p, a) :: m
                    | Gt => (q, b) :: map_insert p a m'
                    end
  end.

(** fs/mod.rs:29-47 [FileType], [FileEntry]. *)
Inductive ftype := TFile | TDirectory.
Record fentry := mkFentry { f_name : str; f_type : ftype; f_len : N }.

(** write/mod.rs:24-29 [WriteError]. File system errors are I/O errors. *)
Inductive werr :=
| BlockDeviceError (e : ioerr)
| FilesystemHierarchyError (e : ioerr)
| FilesystemCopierError (e : ioerr)
| InvalidFileStructureError (e : fserr).

(** blockdev.rs:32-42 [BlockDeviceWrite] with device state [D]. A failing or
    panicking call may have changed the state. *)
Record wdev (D : Type) := mkWdev {
  dev_write : D -> N -> list byte -> D * res ioerr unit;
  dev_len : D -> D * res ioerr N
}.
Arguments dev_write {D}.
Arguments dev_len {D}.

(** fs/mod.rs:124-168 [FilesystemHierarchy] and [FilesystemCopier<BDW>]: [copy_in]
    takes the destination, the input offset, the output offset and the size. The
    source does not change while it is packed. *)
Record fsys (D : Type) := mkFsys {
  read_dir : path -> res ioerr (list fentry);
  copy_in : path -> D -> N -> N -> N -> D * res ioerr N
}.
Arguments read_dir {D}.
Arguments copy_in {D}.

(** img.rs:18-25 [ProgressInfo]; the display string of a path is represented by
    the path. *)
Inductive event :=
| EDiscoveredDirectory (n : N)
| EFileCount (n : N)
| EDirCount (n : N)
| EDirAdded (p : path) (sector : N)
| EFileAdded (p : path) (sector : N)
| EFinishedPacking.

(** Computations with the image and the reported events as state. *)
Definition prog (D : Type) (A : Type) := D * list event -> (D * list event) * res werr A.

Definition pret {D A} (a : A) : prog D A := fun s => (s, Ok a).
Definition plift {D A} (r : res werr A) : prog D A := fun s => (s, r).
Definition pbind {D A B} (x : prog D A) (k : A -> prog D B) : prog D B := fun s =>
  let (s', r) := x s in
  match r with
  | Ok a => k a s'
  | Err e => (s', Err e)
  | Panic p => (s', Panic p)
  | OutOfFuel => (s', OutOfFuel)
  end.
Notation "'do' x '<-' r ';' k" := (pbind r (fun x => k))
  (at level 200, x pattern, r at level 100, k at level 200, right associativity).

(** [progress_callback(e)]. *)
Definition report {D} (e : event) : prog D unit := fun s => ((fst s, snd s ++ [e]), Ok tt).

(** [BlockDeviceWrite::write] and [len] with [map_err(WriteError::BlockDeviceError)]. *)
Definition pwrite {D} (W : wdev D) (off : N) (b : list byte) : prog D unit := fun s =>
  let (d, r) := dev_write W (fst s) off b in ((d, snd s), map_err BlockDeviceError r).
Definition plen {D} (W : wdev D) : prog D N := fun s =>
  let (d, r) := dev_len W (fst s) in ((d, snd s), map_err BlockDeviceError r).
Definition pcopy {D} (fs : fsys D) (p : path) (out size : N) : prog D N := fun s =>
  let (d, r) := copy_in fs p (fst s) 0 out size in ((d, snd s), map_err FilesystemCopierError r).

(** img.rs:34-56 [dir_tree]; the head of [dirs] is the top of the stack. *)
Definition push_subdirs (dir : path) (listing : list fentry) (dirs : list path) : list path :=
  fold_left (fun st e => match f_type e with TDirectory => from_base dir (f_name e) :: st | TFile => st end) listing dirs.

Fixpoint dir_tree_loop {D} (fuel : nat) (fs : fsys D) (dirs : list path) (out : list (path * list fentry))
    : prog D (list (path * list fentry)) :=
  match dirs with
  | [] => pret out
  | dir :: dirs =>
      match fuel with
      | O => plift OutOfFuel
      | S fuel =>
          do listing <- plift (map_err FilesystemHierarchyError (read_dir fs dir));
          do _ <- report (EDiscoveredDirectory (len listing));
          dir_tree_loop fuel fs (push_subdirs dir listing dirs) (out ++ [(dir, listing)])
      end
  end.
Definition dir_tree {D} (fuel : nat) (fs : fsys D) : prog D (list (path * list fentry)) :=
  dir_tree_loop fuel fs [[]] [].

(** img.rs:71-95, one entry of a listing. *)
Definition add_entry (m : build) (tables : dmap writer) (p : path) (w : writer) (e : fentry) : res fserr writer :=
  match f_type e with
  | TDirectory =>
      let* t := unwrap (map_get (from_base p (f_name e)) tables) in
      let* size := dirtab_size t in
      add_dir m w (f_name e) size
  | TFile =>
      let* size := try_into u32_modulus FileTooLarge (f_len e) in
      add_file w (f_name e) size
  end.

(** img.rs:65-99, one directory. [count] is a usize that cannot overflow. *)
Definition table_step (m : build) (st : dmap writer * N) (d : path * list fentry) : res fserr (dmap writer * N) :=
  let* w := foldM (add_entry m (fst st) (fst d)) writer_default (snd d) in
  let* w := compute_size m w in
  Ok (map_insert (fst d) w (fst st), snd st + len (snd d)).

(** img.rs:58-104 [create_dirent_tables]. *)
Definition create_dirent_tables {D} (m : build) (dirtree : list (path * list fentry)) : prog D (dmap writer) :=
  do (tables, count) <- plift (map_err InvalidFileStructureError (foldM (table_step m) ([], 0) (rev dirtree)));
  do _ <- report (EFileCount count);
  do _ <- report (EDirCount (len dirtree));
  pret tables.

(** img.rs:162-182, the loop over the file listing of a table. *)
Fixpoint add_listing {D} (fs : fsys D) (p : path) (listing : list listing_entry) (secs : dmap N) : prog D (dmap N) :=
  match listing with
  | [] => pret secs
  | e :: listing =>
      let file_path := from_base p (l_name e) in
      do _ <- report (EFileAdded file_path (l_sector e));
      if l_is_dir e then add_listing fs p listing (map_insert file_path (l_sector e) secs)
      else do _ <- pcopy fs file_path (l_sector e * SECTOR_SIZE) (l_size e);
           add_listing fs p listing secs
  end.

(** img.rs:144-183, the loop over the directory tables. *)
Fixpoint add_tables {D} (m : build) (W : wdev D) (fs : fsys D) (tables : dmap writer) (nf : N) (secs : dmap N) : prog D N :=
  match tables with
  | [] => pret nf
  | (p, w) :: tables =>
      do sector <- plift (unwrap (map_get p secs));
      do (t, nf) <- plift (map_err InvalidFileStructureError (disk_repr m w nf));
      do _ <- report (EDirAdded p sector);
      do _ <- pwrite W (sector * SECTOR_SIZE) (entry_table t);
      do secs <- add_listing fs p (file_listing t) secs;
      add_tables m W fs tables nf secs
  end.

(** img.rs:195-204, padding the image to a multiple of 32 sectors. *)
Definition pad_image {D} (W : wdev D) : prog D unit :=
  do len <- plen W;
  if 0 <? len mod (32 * 2048)
  then pwrite W len (fill (32 * 2048 - len mod (32 * 2048)) x00)
  else pret tt.

(** img.rs:112-208 [create_xdvdfs_image]. *)
Definition create_xdvdfs_image {D} (fuel : nat) (m : build) (W : wdev D) (fs : fsys D) : prog D unit :=
  do dirtree <- dir_tree fuel fs;
  do tables <- create_dirent_tables m dirtree;
  do (root_path, root_dirtab) <- plift (unwrap (hd_error tables));
  do root_size <- plift (dirtab_size root_dirtab);
  do (nf, root_sector) <- plift (allocate_contiguous m allocator_default root_size);
  do _ <- add_tables m W fs tables nf [(root_path, root_sector)];
  do _ <- pwrite W (32 * SECTOR_SIZE) (volume_ser (volume_new (mkRegion root_sector root_size)));
  do _ <- pad_image W;
  report EFinishedPacking.

(** ** A growable file (blockdev.rs:243-259 [BlockDeviceWrite for File]): seek and
    write; a gap is filled with zeros, writing nothing changes nothing. *)
Definition file_write (img : list byte) (off : N) (b : list byte) : list byte :=
  match b with
  | [] => img
  | _ => firstn (N.to_nat off) (img ++ fill (off - len img) x00) ++ b ++ skipn (N.to_nat (off + len b)) img
  end.

Definition file_wdev : wdev (list byte) :=
  mkWdev _ (fun img off b => (file_write img off b, Ok tt)) (fun img => (img, Ok (len img))).

(** ** Host directory trees *)
Inductive ftree := FFile (content : list byte) | FDir (children : list (str * ftree)).

Fixpoint lookup_tree (p : path) (t : ftree) : option ftree :=
  match p with
  | [] => Some t
  | s :: p =>
      match t with
      | FFile _ => None
      | FDir cs => match find (fun c => str_eqb s (fst c)) cs with
                   | Some (_, t') => lookup_tree p t'
                   | None => None
                   end
      end
  end.

(** The metadata of one directory entry; the length of a directory is not used. *)
Definition entry_of (c : str * ftree) : fentry :=
  match snd c with
  | FFile b => mkFentry (fst c) TFile (len b)
  | FDir _ => mkFentry (fst c) TDirectory 0
  end.

Definition NOT_FOUND : ioerr := IoOther 2.
Definition NOT_A_DIRECTORY : ioerr := IoOther 20.
Definition IS_A_DIRECTORY : ioerr := IoOther 21.

(** stdfs.rs:27-68 [StdFilesystem::read_dir] on a host tree without special
    files; the order of the children stands for the order in which the host
    lists them. *)
Definition std_read_dir (t : ftree) (p : path) : res ioerr (list fentry) :=
  match lookup_tree p t with
  | Some (FDir cs) => Ok (map entry_of cs)
  | Some (FFile _) => Err NOT_A_DIRECTORY
  | None => Err NOT_FOUND
  end.

(** stdfs.rs:76-102 [copy_file_in] into a file: [std::io::copy] of at most [size]
    bytes from the input offset. *)
Definition std_copy_file (t : ftree) (p : path) (dest : list byte) (input output size : N) : list byte * res ioerr N :=
  match lookup_tree p t with
  | Some (FFile b) => let bytes := slice b input size in (file_write dest output bytes, Ok (len bytes))
  | Some (FDir _) => (dest, Err IS_A_DIRECTORY)
  | None => (dest, Err NOT_FOUND)
  end.

Definition std_fs (t : ftree) : fsys (list byte) := mkFsys _ (std_read_dir t) (std_copy_file t).
