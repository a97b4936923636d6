(** Model of write/fs/stdfs.rs on the host file system of M_Host, and of
    cmd_pack.rs:79-97 for a source that is a directory or a file. The output file is
    not seen by the run that writes it: it is outside the source directory. *)
From Verif Require Import M_Base M_Util M_Layout M_Read M_Img M_Dev M_Xfs M_Remap M_Cli M_Host M_Unpack M_Exiso.
From Coq Require Import Init.Byte.
Local Open Scope N_scope.

(** The names that the host lists for a directory, in its order. *)
Definition lister : Type := list str -> list str.

(** stdfs.rs:39-62: one entry; there are no special files, and all names are valid
    Unicode. The length that the host gives for a directory is not used. *)
Definition host_entry (h : host) (dir : list str) (n : str) : res ioerr fentry :=
  match h (dir ++ [n]) with
  | Some HDir => Ok (mkFentry n TDirectory 0)
  | Some (HFile b) => Ok (mkFentry n TFile (len b))
  | None => Err NOT_FOUND
  end.
(** stdfs.rs:31-68 [read_dir]. *)
Definition host_read_dir (h : host) (ls : lister) (root : list str) (p : path) : res ioerr (list fentry) :=
  match h (root ++ p) with
  | Some HDir => mapM (host_entry h (root ++ p)) (ls (root ++ p))
  | Some (HFile _) => Err NOT_A_DIRECTORY
  | None => Err NOT_FOUND
  end.
(** stdfs.rs:83-102 [copy_file_in] into a file, see [std_copy_file]. *)
Definition host_copy_file (h : host) (root : list str) (p : path) (dest : list byte) (input output size : N) : list byte * res ioerr N :=
  match h (root ++ p) with
  | Some (HFile b) => let bytes := slice b input size in (file_write dest output bytes, Ok (len bytes))
  | Some HDir => (dest, Err IS_A_DIRECTORY)
  | None => (dest, Err NOT_FOUND)
  end.
(** stdfs.rs:20-26 [StdFilesystem::create]. *)
Definition host_fs (h : host) (ls : lister) (root : list str) : fsys (list byte) :=
  mkFsys _ (host_read_dir h ls root) (host_copy_file h root).

(** cmd_pack.rs:86-97; the buffered writer leaves the same bytes (C55). *)
Definition std_packer (ls : lister) (fuel : nat) (m : build) : packer := fun h source =>
  match h source with
  | Some HDir =>
      let '((img, _), r) := create_xdvdfs_image fuel m file_wdev (host_fs h ls source) ([], []) in
      pack_result (img, r)
  | _ => image_packer fuel m h source
  end.
