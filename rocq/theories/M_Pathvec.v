(** Model of the conversion of write/fs/mod.rs [PathVec] to paths of the host. *)
From Verif Require Import M_Base M_Util M_Layout M_Read M_Img M_Host.
Local Open Scope N_scope.

(** [PathBuf::from_iter]: every component is pushed, which is [Path::join]. *)
Definition pathbuf_from_iter (p : path) : str := fold_left pjoin p [].
(** fs/mod.rs:56-59 [as_path_buf]. *)
Definition as_path_buf (p : path) (prefix : str) : str := pjoin prefix (pathbuf_from_iter p).
