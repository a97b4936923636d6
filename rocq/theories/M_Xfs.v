(** Model of write/fs/xdvdfs.rs:185-329 [XDVDFSFilesystem] and of packing from an
    existing image (cmd_pack.rs:92-97). *)
From Verif Require Import M_Base M_Util M_Layout M_Avl M_Sector M_Dirtab M_Read M_Img M_Dev M_Trie.
From Coq Require Import Init.Byte.
Local Open Scope N_scope.

(** The part of [M_Img.create_xdvdfs_image] (img.rs:118-208) after [dir_tree]. *)
Definition create_rest {D} (m : build) (W : wdev D) (fs : fsys D) (dirtree : list (path * list fentry)) : prog D unit :=
  do tables <- create_dirent_tables m dirtree;
  do (root_path, root_dirtab) <- plift (unwrap (hd_error tables));
  do root_size <- plift (dirtab_size root_dirtab);
  do (nf, root_sector) <- plift (allocate_contiguous m allocator_default root_size);
  do _ <- add_tables m W fs tables nf [(root_path, root_sector)];
  do _ <- pwrite W (32 * SECTOR_SIZE) (volume_ser (volume_new (mkRegion root_sector root_size)));
  do _ <- pad_image W;
  report EFinishedPacking.

Lemma create_split {D} fuel m (W : wdev D) (fs : fsys D) :
  create_xdvdfs_image fuel m W fs = (do dirtree <- dir_tree fuel fs; create_rest m W fs dirtree).
Proof. reflexivity. Qed.

(** Errors of the underlying image, as errors of the file system traits: the
    model of img.rs has I/O errors there. *)
Definition read_ioerr (e : rerr) : ioerr := match e with IOError e => e | _ => IoOther 1001 end.
Definition copy_ioerr (e : xerr) : ioerr :=
  match e with FilesystemReadErr e => read_ioerr e | BlockDevReadErr e => e | BlockDevWriteErr e => e end.

(** xdvdfs.rs:270-278 *)
Definition dentry_entry (e : dentry) : fentry :=
  mkFentry (name_str e) (if is_directory (d_dirent (e_node e)) then TDirectory else TFile) (r_size (d_region (d_dirent (e_node e)))).

Definition cache := trie dentry.

(** xdvdfs.rs:265-281, the loop of [read_dir]. An insertion that panics leaves the
    cache in a state that nobody sees. *)
Fixpoint list_loop (fuel : nat) (d : dev) (s : scan) (node : cache) : cache * res rerr (list fentry) :=
  match fuel with
  | O => (node, OutOfFuel)
  | S fuel' =>
      match next_entry fuel d s with
      | Ok (None, _) => (node, Ok [])
      | Ok (Some e, s) =>
          match insert_tail node (name_str e) e (fun x => Ok x) with
          | Ok node =>
              let (node, r) := list_loop fuel' d s node in
              (node, let* es := r in Ok (dentry_entry e :: es))
          | Err x => (node, Err x)
          | Panic p => (node, Panic p)
          | OutOfFuel => (node, OutOfFuel)
          end
      | Err x => (node, Err x)
      | Panic p => (node, Panic p)
      | OutOfFuel => (node, OutOfFuel)
      end
  end.

(** xdvdfs.rs:242-282 [read_dir]. The mutable reference into the cache is modelled
    by storing the changed subtree. *)
Definition xfs_read_dir (fuel : nat) (d : dev) (v : volume) (c : cache) (dir : path) : cache * res rerr (list fentry) :=
  let found : res rerr (region * cache) :=
    match dir with
    | [] => Ok (v_root v, c)
    | _ =>
        let* o := lookup_node c dir in
        match match o with Some n => record n | None => None end with
        | None => Err NoDirent
        | Some (e, sub) =>
            match dirent_table (d_dirent (e_node e)) with
            | None => Err IsNotDirectory
            | Some r => Ok (r, sub)
            end
        end
    end in
  match (let* (r, node) := found in let* s := scan_dirent_tree d r in Ok (s, node)) with
  | Ok (s, node) => let (node, r) := list_loop fuel d s node in (store_subtree c dir node, r)
  | Err x => (c, Err x)
  | Panic p => (c, Panic p)
  | OutOfFuel => (c, OutOfFuel)
  end.

(** A copier (xdvdfs.rs:75-106) with its source image: input offset, output
    offset, size, destination. *)
Definition copier (D : Type) := N -> N -> N -> D -> D * res xerr N.

(** xdvdfs.rs:294-328 [copy_file_in]. *)
Definition xfs_copy {D} (cp : copier D) (c : cache) (src : path) (dest : D) (input output size : N) : D * res xerr N :=
  match trie_get (E:=xerr) c src with
  | Ok (Some e) =>
      let r := d_region (d_dirent (e_node e)) in
      let size_to_copy := N.min size (r_size r) in
      if size_to_copy =? 0 then (dest, Ok 0)
      else match map_err FilesystemReadErr (region_offset r input) with
           | Ok off => cp off output size_to_copy dest
           | Err x => (dest, Err x)
           | Panic p => (dest, Panic p)
           | OutOfFuel => (dest, OutOfFuel)
           end
  | Ok None => (dest, Err (FilesystemReadErr NoDirent))
  | Err x => (dest, Err x)
  | Panic p => (dest, Panic p)
  | OutOfFuel => (dest, OutOfFuel)
  end.

(** img.rs:34-56 [dir_tree] as in [M_Img], with the cache as additional state.
    [sf] bounds the scan of one directory. *)
Fixpoint xfs_dir_loop {D} (fuel sf : nat) (d : dev) (v : volume) (c : cache) (dirs : list path) (out : list (path * list fentry))
    : prog D (cache * list (path * list fentry)) :=
  match dirs with
  | [] => pret (c, out)
  | dir :: dirs =>
      match fuel with
      | O => plift OutOfFuel
      | S fuel =>
          let (c, r) := xfs_read_dir sf d v c dir in
          do listing <- plift (map_err (fun e => FilesystemHierarchyError (read_ioerr e)) r);
          do _ <- report (EDiscoveredDirectory (len listing));
          xfs_dir_loop fuel sf d v c (push_subdirs dir listing dirs) (out ++ [(dir, listing)])
      end
  end.

(** After [dir_tree] the cache no longer changes: [create_xdvdfs_image] only calls
    [copy_file_in], which only reads it. *)
Definition xfs_fs {D} (cp : copier D) (c : cache) : fsys D :=
  mkFsys _ (fun _ => Err (IoOther 1002))
    (fun p dest input output size => let (dest, r) := xfs_copy cp c p dest input output size in (dest, map_err copy_ioerr r)).

(** img.rs:112-208 [create_xdvdfs_image] from an [XDVDFSFilesystem]. *)
Definition create_from_volume {D} (fuel : nat) (m : build) (W : wdev D) (d : dev) (v : volume) (cp : copier D) : prog D unit :=
  do (c, dirtree) <- xfs_dir_loop fuel fuel d v trie_default [[]] [];
  create_rest m W (xfs_fs cp c) dirtree.

(** xdvdfs.rs:207-221 [new] and packing: [None] is reported by the caller as an
    invalid image (cmd_pack.rs:94-96). *)
Definition repack {D} (fuel : nat) (m : build) (W : wdev D) (d : dev) (cp : copier D) : prog D unit :=
  match read_volume d with
  | Ok v => create_from_volume fuel m W d v cp
  | Err _ => plift (Err (FilesystemHierarchyError (IoOther 1000)))
  | Panic p => plift (Panic p)
  | OutOfFuel => plift OutOfFuel
  end.

(** The copiers of cmd_pack.rs ([StdIOCopier], onto a file) and of the web
    application ([DefaultCopier]). *)
Definition std_copier (img : list byte) (base : N) : copier (list byte) := std_io_copy img base.
Definition default_copier {D} (src : dev) (W : wdev D) : copier D := rw_copy src W.
