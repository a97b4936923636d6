(** Specification vocabulary for mounted images whose file changes (C166). *)
From Verif Require Import M_Base M_Util M_Layout M_Read M_Img M_Remap M_Cli M_Fuse S_Read S_Fuse.
From Coq Require Import Init.Byte.
Local Open Scope N_scope.

(** The open image file has other contents from now on. *)
Definition changed (fs : mount) (d : dev) : mount := mkMount d (m_root fs) (m_cache fs).

(** Requests with any arguments and any outcome; the image file may change
    between any two of them, in any way. *)
Inductive course : mount -> mount -> Prop :=
| co_none fs : course fs fs
| co_change fs d fs' : course (changed fs d) fs' -> course fs fs'
| co_lookup fuel fs parent name fs' : course (fst (fuse_lookup fuel fs parent name)) fs' -> course fs fs'
| co_readdir fuel fs ino offset full fs' : course (fst (fuse_readdir fuel fs ino offset full)) fs' -> course fs fs'.

(** An image was mounted; requests were answered and the file changed meanwhile. *)
Definition in_use (fs : mount) : Prop := exists file fs0, mount_new file = Ok fs0 /\ course fs0 fs.
