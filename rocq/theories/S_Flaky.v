(** Specification vocabulary for sources that fail: a device that differs from
    another one only in that some of its reads fail. *)
From Verif Require Import M_Base M_Util M_Layout M_Read M_Img M_Cli.
From Coq Require Import Init.Byte.
Local Open Scope N_scope.

(** Every read of [d'] gives what [d] gives, or an error. *)
Definition fails_more (d' d : dev) : Prop := forall o n, d' o n = d o n \/ exists e, d' o n = Err e.
(** The result is the same, or an I/O error is reported. *)
Definition same_or_io {A} (r' r : res rerr A) : Prop := r' = r \/ exists e, r' = Err (IOError e).
(** The output is the same, or its first lines followed by an I/O error. *)
Definition same_or_cut (o' o : output) : Prop :=
  o' = o \/ (exists e, snd o' = Err (IOError e)) /\ exists rest, fst o = fst o' ++ rest.

(** The commands that read one image, as functions of the image file. *)
Inductive read_command : (list byte -> output) -> Prop :=
| rc_ls fuel path scan : read_command (fun file => cmd_ls fuel file path scan)
| rc_tree fuel name : read_command (fun file => cmd_tree fuel name file)
| rc_info m fuel entry : read_command (fun file => cmd_info m fuel file entry)
| rc_md5 H fuel path : read_command (fun file => cmd_md5 H fuel file path)
| rc_checksum H fuel name : read_command (fun file => cmd_checksum H fuel [(name, file)]).

(** A file system that differs from another one only in that it fails more often:
    what it returns is right, and when copying succeeds it has the right effect. *)
Definition fs_fails_more {D} (fs' fs : fsys D) : Prop :=
  (forall p r, read_dir fs' p = Ok r -> read_dir fs p = Ok r)
  /\ forall p dest i o n dest' r, copy_in fs' p dest i o n = (dest', Ok r) -> copy_in fs p dest i o n = (dest', Ok r).
