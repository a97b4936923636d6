(** Model of the programs around the commands: xdvdfs-cli/src/main.rs and
    exiso_compat.rs:199-218. The arguments have been parsed by clap. *)
From Verif Require Import M_Base M_Util M_Layout M_Read M_Check M_Cli M_Unpack M_Exiso M_Extract M_Copyout M_Host.
From Coq Require Import Init.Byte.
Local Open Scope N_scope.

(** What a command does: the lines it prints, what it changes, and how it ends. *)
Definition effect : Type := world -> (world * list str) * res uerr unit.

(** A command that reads an image and prints (img.rs:33-37 and the commands of
    cmd_read.rs, cmd_md5.rs, cmd_info.rs), for images that are not compressed. *)
Definition reading (cwd : list str) (image_path : str) (f : list byte -> output) : effect := fun w =>
  match existing (w_fs w) cwd image_path with
  | Ok (_, HFile file) => let (lines, r) := f file in ((w, lines), map_err URead r)
  | Ok (_, HDir) => ((w, []), Err (UHost HIsADirectory))
  | Err e => ((w, []), Err (UHost e))
  | Panic p => ((w, []), Panic p)
  | OutOfFuel => ((w, []), OutOfFuel)
  end.
(** Commands that print nothing to the standard output that is modelled. *)
Definition quietly (f : world -> world * res uerr unit) : effect := fun w => let (w', r) := f w in ((w', []), r).
Definition hosted (f : hprog unit) : effect := quietly (fun w => uhost (f w)).
(** [f(..).await?; g(..)]. *)
Definition eseq (f g : effect) : effect := fun w =>
  match f w with
  | ((w, out), Ok _) => let '((w', out'), r) := g w in ((w', out ++ out'), r)
  | x => x
  end.

(** main.rs:41-56 [Cmd]; build-image, image-spec and compress are given by what they
    do. *)
Inductive cmd :=
| Ls (image path : str) (scan : bool)
| Tree (image : str)
| Md5 (image : str) (path : option str)
| Checksum (images : list str)
| Info (image : str) (entry : option str)
| CopyOut (image src dest : str)
| Unpack (image : str) (target : option str)
| Pack (source : str) (image : option str)
| OtherCmd (f : effect).

(** exiso_compat.rs:15-40 [EXMode] and 47-78 [EXCommand] without the flags -m and -s,
    which do nothing. *)
Inductive exmode :=
| ModeC (dir : str) (file : option str) (rest : list str)
| ModeL (xiso : list str)
| ModeX (xiso : list str)
| ModeR (xiso : list str)
| ModeNone (xiso : list str).
Record excmd := mkEx { x_directory : option str; x_delete : bool; x_quiet_error : bool; x_quiet_all : bool; x_mode : exmode }.

Section Programs.
(** [dup i]: whether the handle of the image can be duplicated for the [i]-th file that
    is copied out (see M_Copyout.v). *)
Variables (H : list byte -> list byte) (m : build) (fuel : nat) (dup : nat -> bool) (cwd : list str) (pk : packer).

(** cmd_read.rs:124-141 [cmd_checksum]. *)
Fixpoint checksum_files (images : list str) : effect :=
  match images with
  | [] => fun w => ((w, []), Ok tt)
  | i :: is => eseq (reading cwd i (checksum_single H fuel i)) (checksum_files is)
  end.
(** exiso_compat.rs:134-144 [exiso_list]. *)
Fixpoint list_files (images : list str) : effect :=
  match images with
  | [] => fun w => ((w, []), Ok tt)
  | i :: is => eseq (reading cwd i (cmd_tree fuel i)) (list_files is)
  end.

(** main.rs:59-75 [run_command]. *)
Definition run_command (c : cmd) : effect :=
  match c with
  | Ls image path scan => reading cwd image (fun file => cmd_ls fuel file path scan)
  | Tree image => reading cwd image (cmd_tree fuel image)
  | Md5 image path => reading cwd image (fun file => cmd_md5 H fuel file path)
  | Checksum images => checksum_files images
  | Info image entry => reading cwd image (fun file => cmd_info m fuel file entry)
  | CopyOut image src dest => quietly (copyout_dup fuel dup cwd image src dest)
  | Unpack image target => quietly (unpack_dup fuel dup cwd image target)
  | Pack source image => hosted (cmd_pack cwd pk source image)
  | OtherCmd f => f
  end.
(** exiso_compat.rs:199-207 [run_exiso_command]. *)
Definition run_exiso_command (c : excmd) : effect :=
  match x_mode c with
  | ModeC dir file rest => hosted (exiso_create cwd pk dir file rest)
  | ModeL xiso => list_files xiso
  | ModeX xiso | ModeNone xiso => quietly (exiso_extract fuel cwd (x_directory c) xiso)
  | ModeR xiso => hosted (exiso_repack cwd pk (x_directory c) (x_delete c) xiso)
  end.

(** What is seen of a process: the exit status ([None] if it does not end), the lines
    on standard output, and the error that standard error tells. *)
Record process := mkProcess { p_world : world; p_out : list str; p_error : option uerr; p_status : option N }.
(** main.rs:83-87 and exiso_compat.rs:210-217; a panic ends the process with 101. *)
Definition finish_with (quiet : bool) (x : (world * list str) * res uerr unit) : process :=
  let '((w, out), r) := x in
  match r with
  | Ok _ => mkProcess w out None (Some 0)
  | Err e => mkProcess w out (if quiet then None else Some e) (Some 1)
  | Panic _ => mkProcess w out None (Some 101)
  | OutOfFuel => mkProcess w out None None
  end.
(** exiso_compat.rs:209-218 [run_exiso_program]. *)
Definition run_exiso_program (c : excmd) (w : world) : process :=
  finish_with (x_quiet_error c || x_quiet_all c) (run_exiso_command c w).
(** main.rs:26-37 [TopLevelCommand], 77-88 [run_xdvdfs_program] and 90-99 [main]; a
    program called by any name but extract-xiso is xdvdfs. *)
Inductive toplevel := Core (c : cmd + excmd) | Exiso (c : excmd).
Definition main (t : toplevel) (w : world) : process :=
  match t with
  | Core (inl c) => finish_with false (run_command c w)
  | Core (inr c) => run_exiso_program c w
  | Exiso c => run_exiso_program c w
  end.
End Programs.
