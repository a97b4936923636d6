(** A source directory that changes while it is packed. Every directory is read once
    and every file is opened once (img.rs:34-57, 132-186); [before] gives the host at
    the moment when a directory is read, [later] the host from the moment when a file
    is opened. A file does not change while its bytes are copied. *)
From Verif Require Import M_Base M_Read M_Img M_Stdfs M_Host.
From Coq Require Import Init.Byte.
Local Open Scope N_scope.

(** stdfs.rs:31-68, 83-102. *)
Definition moving_fs (before later : path -> host) (ls : lister) (root : list str) : fsys (list byte) :=
  mkFsys _ (fun p => host_read_dir (before p) ls root p) (fun p => host_copy_file (later p) root p).
