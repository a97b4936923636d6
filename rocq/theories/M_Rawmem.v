(** Model of the way in which compressing reads a directory of a real host, with
    everything that it can contain (see M_Special). *)
From Verif Require Import M_Base M_Util M_Layout M_Read M_Img M_Dev M_Special.
From Coq Require Import Init.Byte.
Local Open Scope N_scope.

(** stdfs.rs:104-131 and 133-160 [copy_file_in] into memory: the file is opened first,
    even if nothing is read; see [std_copy_mem]. *)
Definition raw_copy_mem (t : raw) (p : path) (dest : list byte) (input output size : N) : list byte * res ioerr N :=
  match lookup_raw p t with
  | Some (RFile b) => slice_copy b dest input output size
  | Some (RSealed _) => (dest, Err PERMISSION_DENIED)
  | Some (RDir _) | Some RLocked => (dest, Err IS_A_DIRECTORY)
  | Some ROther => (dest, Err UNSUPPORTED)
  | None => (dest, Err NOT_FOUND)
  end.
Definition raw_mem_fs (t : raw) : fsys (list byte) := mkFsys _ (raw_read_dir t) (raw_copy_mem t).
