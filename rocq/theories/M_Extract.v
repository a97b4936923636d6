(** Model of cmd_unpack.rs where the image is a file of the host, which is read
    again for every file that is copied out (M_Unpack.v keeps the image apart), and of
    extract-xiso's modes -x and -l (exiso_compat.rs:134-159). *)
From Verif Require Import M_Base M_Util M_Layout M_Read M_Cli M_Unpack M_Exiso M_Host.
From Coq Require Import Init.Byte.
Local Open Scope N_scope.

(** What the open image file holds at the moment. *)
Definition image_now (ip : list str) (w : world) : list byte := match w_fs w ip with Some (HFile b) => b | _ => [] end.

(** cmd_unpack.rs:44-61 and 130-147: the data is read after the new file has been
    opened and truncated. *)
Definition copy_file_at (cwd : list str) (ip : list str) (base : N) (s : str) (r : region) : hprog unit :=
  hbind (open_trunc cwd s) (fun p =>
  if region_is_empty r then hret tt else fun w => write_new p (file_data (image_now ip w) base r) w).

(** cmd_unpack.rs:20-68, as in M_Unpack.v. *)
Fixpoint copyout_loop_at (cwd : list str) (ip : list str) (base : N) (dest : str) (tree : list (str * dentry)) : hprog unit :=
  match tree with
  | [] => hret tt
  | (dir, e) :: tree =>
      let dirname := pjoin dest (trim_start dir) in
      let file_path := pjoin dirname (name_str e) in
      hbind (create_dir_all cwd dirname) (fun _ =>
      hbind (if is_directory (d_dirent (e_node e)) then create_dir cwd file_path
             else if d_namelen (d_dirent (e_node e)) =? 0 then hret tt
             else copy_file_at cwd ip base file_path (d_region (d_dirent (e_node e)))) (fun _ =>
      copyout_loop_at cwd ip base dest tree))
  end.

(** cmd_unpack.rs:13-71: the tree is listed before anything is written. *)
Definition copyout_directory_at (fuel : nat) (cwd : list str) (ip : list str) (base : N) (dest : str) (r : region) (w : world) : world * res uerr unit :=
  uread (file_tree fuel (offset_dev (file_dev (image_now ip w)) base) r) w (fun tree => uhost (copyout_loop_at cwd ip base dest tree w)).

(** img.rs:33-37 [open_image_raw]; a directory can be opened, but not read. *)
Definition open_raw (cwd : list str) (image_path : str) (w : world) (k : list str -> list byte -> world * res uerr unit) : world * res uerr unit :=
  match existing (w_fs w) cwd image_path with
  | Ok (ip, HFile file) => k ip file
  | Ok (_, HDir) => (w, Err (UHost HIsADirectory))
  | Err e => (w, Err (UHost e))
  | Panic p => (w, Panic p)
  | OutOfFuel => (w, OutOfFuel)
  end.

(** cmd_unpack.rs:84-97 [cmd_unpack]. *)
Definition unpack_at (fuel : nat) (cwd : list str) (image_path : str) (target : option str) (w : world) : world * res uerr unit :=
  match unpack_target image_path target with
  | Ok dest =>
      open_raw cwd image_path w (fun ip file =>
      uread (offset_wrapper_new (file_dev file)) w (fun base =>
      uread (read_volume (offset_dev (file_dev file) base)) w (fun v =>
      copyout_directory_at fuel cwd ip base dest (v_root v) w)))
  | Err e => (w, Err e)
  | Panic p => (w, Panic p)
  | OutOfFuel => (w, OutOfFuel)
  end.

(** exiso_compat.rs:147-159 [exiso_extract]. *)
Fixpoint exiso_extract (fuel : nat) (cwd : list str) (directory : option str) (xisos : list str) (w : world) : world * res uerr unit :=
  match xisos with
  | [] => (w, Ok tt)
  | x :: xs =>
      match unpack_at fuel cwd x directory w with
      | (w, Ok _) => exiso_extract fuel cwd directory xs w
      | (w, Err e) => (w, Err e)
      | (w, Panic p) => (w, Panic p)
      | (w, OutOfFuel) => (w, OutOfFuel)
      end
  end.

(** exiso_compat.rs:134-144 [exiso_list], on images given with their contents. *)
Fixpoint exiso_list (fuel : nat) (xisos : list (str * list byte)) : output :=
  match xisos with
  | [] => done
  | (name, file) :: xs => andthen (cmd_tree fuel name file) (exiso_list fuel xs)
  end.
