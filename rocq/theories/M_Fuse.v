(** Model of xdvdfs-fsd/src/img_fs.rs: the image as a FUSE file system. The
    request's user, the time stamps, permission bits and the log are left out;
    inode numbers are unbounded. Names that are not UTF-8 (answered by EINVAL)
    do not occur. *)
From Verif Require Import M_Base M_Util M_Layout M_Read M_Remap M_Cli.
From Coq Require Import Init.Byte.
Local Open Scope N_scope.

Inductive errno := EIO | ENOTDIR | ENOENT | EISDIR | EINVAL | ENOTSUP.

(** layout.rs:71-100: derived equality of nodes. *)
Definition region_eqb (a b : region) : bool := (r_sector a =? r_sector b) && (r_size a =? r_size b).
Definition ddata_eqb (a b : ddata) : bool :=
  region_eqb (d_region a) (d_region b) && (d_attrs a =? d_attrs b) && (d_namelen a =? d_namelen b).
Definition dnode_eqb (a b : dnode) : bool :=
  (d_left a =? d_left b) && (d_right a =? d_right b) && ddata_eqb (d_dirent a) (d_dirent b).
Definition dentry_eqb (a b : dentry) : bool :=
  dnode_eqb (e_node a) (e_node b) && bytes_eqb (e_name a) (e_name b) && (e_offset a =? e_offset b).

(** img_fs.rs:18-22 [FuseFilesystemCache]: two hash maps and a counter. *)
Record icache := mkCache { ic_nodes : list (N * dentry); ic_numbers : list (dentry * N); ic_next : N }.
(** img_fs.rs:62-68 *)
Definition cache_new : icache := mkCache [] [] 2.
Fixpoint number_of (l : list (dentry * N)) (e : dentry) : option N :=
  match l with [] => None | (e', i) :: l => if dentry_eqb e' e then Some i else number_of l e end.
Fixpoint node_of (l : list (N * dentry)) (i : N) : option dentry :=
  match l with [] => None | (j, e) :: l => if j =? i then Some e else node_of l i end.
(** img_fs.rs:70-96 [get_or_assign_inode]. *)
Definition get_or_assign (c : icache) (e : dentry) : icache * N :=
  match number_of (ic_numbers c) e with
  | Some i => (c, i)
  | None => (mkCache ((ic_next c, e) :: ic_nodes c) ((e, ic_next c) :: ic_numbers c) (ic_next c + 1), ic_next c)
  end.

(** img_fs.rs:24-33: the mounted image. *)
Record mount := mkMount { m_dev : dev; m_root : region; m_cache : icache }.
(** img_fs.rs:100-124 [new]. *)
Definition mount_new (file : list byte) : res rerr mount :=
  let* d := open_image file in
  let* v := read_volume d in
  Ok (mkMount d (v_root v) cache_new).
Definition with_cache (fs : mount) (c : icache) : mount := mkMount (m_dev fs) (m_root fs) c.

(** img_fs.rs:126-136 [lookup_dirent_by_inode]. *)
Inductive found := FValue (e : dentry) | FRoot | FNone.
Definition dirent_by_inode (fs : mount) (ino : N) : found :=
  if ino =? 1 then FRoot else match node_of (ic_nodes (m_cache fs)) ino with Some e => FValue e | None => FNone end.
(** img_fs.rs:138-152 [lookup_dirtab_by_inode]. *)
Definition dirtab_by_inode (fs : mount) (ino : N) : option region :=
  if ino =? 1 then Some (m_root fs)
  else match node_of (ic_nodes (m_cache fs)) ino with Some e => dirent_table (d_dirent (e_node e)) | None => None end.

(** img_fs.rs:154-184 [new_file_attr]. *)
Record attr := mkAttr { a_ino : N; a_size : N; a_blocks : N; a_dir : bool }.
Definition new_attr (ino size : N) (is_dir : bool) : attr := mkAttr ino size ((size + 2047) / 2048) is_dir.

(** Errors of the image reader become EIO. *)
Definition eio {A} (r : res rerr A) : res errno A :=
  match r with Ok a => Ok a | Err _ => Err EIO | Panic p => Panic p | OutOfFuel => OutOfFuel end.

(** img_fs.rs:188-230 [lookup]. *)
Definition fuse_lookup (fuel : nat) (fs : mount) (parent : N) (name : str) : mount * res errno attr :=
  match dirtab_by_inode fs parent with
  | None => (fs, Err ENOTDIR)
  | Some r =>
      match eio (walk_path fuel (m_dev fs) r name) with
      | Ok e =>
          let (c, i) := get_or_assign (m_cache fs) e in
          (with_cache fs c, Ok (new_attr i (r_size (d_region (d_dirent (e_node e)))) (is_directory (d_dirent (e_node e)))))
      | Err x => (fs, Err x)
      | Panic p => (fs, Panic p)
      | OutOfFuel => (fs, OutOfFuel)
      end
  end.

(** img_fs.rs:232-258 [getattr]. *)
Definition fuse_getattr (fs : mount) (ino : N) : res errno attr :=
  match dirent_by_inode fs ino with
  | FValue e => Ok (new_attr ino (r_size (d_region (d_dirent (e_node e)))) (is_directory (d_dirent (e_node e))))
  | FRoot => Ok (new_attr 1 (r_size (m_root fs)) true)
  | FNone => Err ENOENT
  end.

(** img_fs.rs:260-270 [open] and 315-331 [opendir]: the access mode bits
    O_WRONLY, O_RDWR, O_CREAT and O_TRUNC. *)
Definition fuse_open (flags : N) : res errno unit := if N.land flags 579 =? 0 then Ok tt else Err ENOTSUP.

(** img_fs.rs:272-313 [read]; offsets are not negative. *)
Definition fuse_read (fs : mount) (ino offset size : N) : res errno (list byte) :=
  match dirent_by_inode fs ino with
  | FValue e => eio (read_data_offset (m_dev fs) (d_dirent (e_node e)) size offset)
  | FRoot => Err EISDIR
  | FNone => Err ENOENT
  end.

(** A record of a directory listing: inode number, position of the next record,
    whether it is a directory, name. *)
Record rdent := mkRdent { rd_ino : N; rd_off : N; rd_dir : bool; rd_name : str }.

(** img_fs.rs:372-384: skipping to the requested position. *)
Fixpoint skip_entries (fuel : nat) (d : dev) (s : scan) (idx offset : N) : res rerr (scan * N) :=
  match fuel with
  | O => OutOfFuel
  | S fuel' =>
      if offset <=? idx then Ok (s, idx)
      else let* (o, s) := next_entry fuel d s in
           match o with
           | None => Ok (s, idx)
           | Some _ => skip_entries fuel' d s (idx + 1) offset
           end
  end.
(** img_fs.rs:388-417: filling the reply; [full l x] says that [x] does not fit after
    [l]. Names can always be decoded. *)
Fixpoint fill_entries (fuel : nat) (d : dev) (full : list rdent -> rdent -> bool) (s : scan) (idx : N) (c : icache) (l : list rdent)
    : icache * res rerr (list rdent) :=
  match fuel with
  | O => (c, OutOfFuel)
  | S fuel' =>
      match next_entry fuel d s with
      | Ok (Some e, s) =>
          let (c, i) := get_or_assign c e in
          let x := mkRdent i (idx + 1) (is_directory (d_dirent (e_node e))) (name_str e) in
          if full l x then (c, Ok l) else fill_entries fuel' d full s (idx + 1) c (l ++ [x])
      | Ok (None, _) => (c, Ok l)
      | Err x => (c, Err x)
      | Panic p => (c, Panic p)
      | OutOfFuel => (c, OutOfFuel)
      end
  end.

(** img_fs.rs:333-420 [readdir]; offsets are not negative. When "." or ".." does not
    fit, the reply is dropped, and the fuser library answers EIO. *)
Definition fuse_readdir (fuel : nat) (fs : mount) (ino offset : N) (full : list rdent -> rdent -> bool) : mount * res errno (list rdent) :=
  match dirtab_by_inode fs ino with
  | None => (fs, Err ENOTDIR)
  | Some r =>
      match eio (scan_dirent_tree (m_dev fs) r) with
      | Ok s =>
          let dot := mkRdent ino 1 true [46] in
          let dotdot := mkRdent ino 2 true [46; 46] in
          if (offset =? 0) && full [] dot then (fs, Err EIO) else
          let l := if offset =? 0 then [dot] else [] in
          if (offset <=? 1) && full l dotdot then (fs, Err EIO) else
          let l := if offset <=? 1 then l ++ [dotdot] else l in
          match eio (skip_entries fuel (m_dev fs) s 2 offset) with
          | Ok (s, idx) =>
              let (c, x) := fill_entries fuel (m_dev fs) full s idx (m_cache fs) l in
              (with_cache fs c, eio x)
          | Err x => (fs, Err x)
          | Panic p => (fs, Panic p)
          | OutOfFuel => (fs, OutOfFuel)
          end
      | Err x => (fs, Err x)
      | Panic p => (fs, Panic p)
      | OutOfFuel => (fs, OutOfFuel)
      end
  end.
