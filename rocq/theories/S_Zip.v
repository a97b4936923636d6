(** Specification vocabulary for compressed images (C167). *)
From Verif Require Import M_Base M_Util M_Layout M_Read M_Img M_Check M_Cli M_Zip.
From Coq Require Import Init.Byte.
Local Open Scope N_scope.

(** The reader [z] of a compressed file gives the bytes of the image [img] that was
    compressed, and fails behind its end, in any way. *)
Definition inflates (z : dev) (img : list byte) : Prop :=
  (forall o n, o + n <= len img -> z o n = Ok (slice img o n))
  /\ (forall o n, len img < o + n -> (n = 0 /\ z o n = Ok []) \/ exists e, z o n = Err e).
(** It does not fail when nothing is asked for. *)
Definition patient (z : dev) : Prop := forall o, z o 0 = Ok [].

(** The command for plain files. *)
Definition command_of (m : build) (H : list byte -> list byte) (fuel : nat) (c : reading) (file : list byte) : output :=
  match c with
  | Ls path scan => cmd_ls fuel file path scan
  | Tree name => cmd_tree fuel name file
  | Info entry => cmd_info m fuel file entry
  | Md5 path => cmd_md5 H fuel file path
  | Checksum name => cmd_checksum H fuel [(name, file)]
  end.
