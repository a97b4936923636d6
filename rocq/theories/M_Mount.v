(** Model of xdvdfs-fsd main.rs and daemonize.rs: options, what is mounted, and the exit
    status that the caller of the program gets. Also the attributes of M_Fuse that are
    the same for all entries. The system is a parameter: whether a process can be
    forked, and whether the mount succeeds. *)
From Verif Require Import M_Base M_Util M_Layout M_Read M_Remap M_Cli M_Unpack M_Exiso M_Fuse M_Host M_Build.
From Coq Require Import Init.Byte Strings.String.
From Coq Require Import List.
Local Close Scope string_scope.
Local Open Scope N_scope.

(** fuser::MountOption, as far as it is used. *)
Inductive mopt :=
| AutoUnmount | AllowOther | AllowRoot | DefaultPermissions | Suid | NoSuid | RO | RW | Exec | NoExec | Dev | NoDev
| FSName (s : str) | Subtype (s : str).

Definition COMMA : N := 44.
(** main.rs:52-82: one option. *)
Inductive piece := PMount (o : mopt) | PFork (fork : bool) | PUnsupported.
Definition read_piece (x : str) : piece :=
  if str_eqb x (text "auto_unmount") then PMount AutoUnmount
  else if str_eqb x (text "allow_other") then PMount AllowOther
  else if str_eqb x (text "allow_root") then PMount AllowRoot
  else if str_eqb x (text "default_permissions") then PMount DefaultPermissions
  else if str_eqb x (text "suid") then PMount Suid
  else if str_eqb x (text "nosuid") then PMount NoSuid
  else if str_eqb x (text "ro") then PMount RO
  else if str_eqb x (text "rw") then PMount RW
  else if str_eqb x (text "exec") then PMount Exec
  else if str_eqb x (text "noexec") then PMount NoExec
  else if str_eqb x (text "dev") then PMount Dev
  else if str_eqb x (text "nodev") then PMount NoDev
  else if M_Remap.starts_with (text "fsname=") x then PMount (FSName (skipn 7 x))
  else if M_Remap.starts_with (text "subtype=") x then PMount (Subtype (skipn 8 x))
  else if str_eqb x (text "fork") then PFork true
  else if str_eqb x (text "nofork") then PFork false
  else PUnsupported.

(** main.rs:46-86: the state of the loop, and the loop over all options. *)
Record mstate := mkMstate { ms_opts : list mopt; ms_fsname : bool; ms_subtype : bool; ms_fork : bool }.
Definition mount_step (st : mstate) (x : str) : res herr mstate :=
  match read_piece x with
  | PMount o =>
      Ok (mkMstate (ms_opts st ++ [o]) (match o with FSName _ => true | _ => ms_fsname st end)
            (match o with Subtype _ => true | _ => ms_subtype st end) (ms_fork st))
  | PFork b => Ok (mkMstate (ms_opts st) (ms_fsname st) (ms_subtype st) b)
  | PUnsupported => Err HRefused
  end.
(** main.rs:39-97 [convert_fuse_mount_opts]. *)
Definition convert_opts (src : str) (opts : list str) : res herr (bool * list mopt) :=
  let* st := foldM mount_step (mkMstate [] false false true) (concat (map (split_at COMMA) opts)) in
  Ok (ms_fork st, ms_opts st ++ (if ms_fsname st then [] else [FSName src]) ++ (if ms_subtype st then [] else [Subtype (text "xdvdfs")])).

(** What the run of the program amounts to: the status that its caller gets, and the
    options of the mount if there was one. *)
Record ran := mkRan { exit_status : N; mounted_with : option (list mopt) }.
Definition failed : ran := mkRan 1 None.
Definition panicked : ran := mkRan 101 None.

(** main.rs:113-119: the process that serves the mount; its status is 0 when it is
    unmounted. *)
Definition serve (kernel : list mopt -> bool) (file : list byte) (l : list mopt) : ran :=
  match mount_new file with
  | Ok _ => if kernel l then mkRan 0 (Some l) else failed
  | Err _ => failed
  | Panic _ | OutOfFuel => panicked
  end.
(** main.rs:99-120 [mount_image_file]. daemonize.rs:39-60, 11-17: the caller is the
    parent, which exits with 0 as soon as the child is mounting or its handle is
    dropped, by an error or a panic. *)
Definition mount_image_file (can_fork : bool) (kernel : list mopt -> bool) (src : str) (file : list byte) (opts : list str) : ran :=
  match convert_opts src opts with
  | Ok (fork, l) =>
      if fork then if can_fork then mkRan 0 (mounted_with (serve kernel file l)) else failed
      else serve kernel file l
  | _ => failed
  end.

(** main.rs:126-147 [run_mount_program] and 149-158 [main]; main.rs:122-124
    [mount_pack_overlay] for a directory. A source that cannot be resolved has no
    metadata either. *)
Definition run_mount (can_fork : bool) (kernel : list mopt -> bool) (h : host) (cwd : list str) (source mount_point : str) (opts : list str) : ran :=
  match existing h cwd mount_point with
  | Ok (_, HDir) =>
      match existing h cwd source with
      | Ok (p, HFile file) => mount_image_file can_fork kernel (pstr p) file opts
      | Ok (_, HDir) => panicked
      | _ => failed
      end
  | _ => failed
  end.

(** img_fs.rs:166-183 [new_file_attr]: 0o444, no links, blocks of 2048 bytes. *)
Definition attr_perm (a : attr) : N := 292.
Definition attr_nlink (a : attr) : N := 0.
Definition attr_blksize (a : attr) : N := 2048.
