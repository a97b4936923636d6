(** Model of cmd_unpack.rs in full: the image is a file of the host, as in
    M_Extract.v, and its handle cannot always be duplicated, so that some files are
    copied the slow way (cmd_unpack.rs:62-66, 148-152). *)
From Verif Require Import M_Base M_Util M_Layout M_Read M_Cli M_Unpack M_Exiso M_Host M_Extract.
From Coq Require Import Init.Byte.
Local Open Scope N_scope.

(** Continue after a call to the host. *)
Definition ucall {A} (x : world * res herr A) (k : A -> world -> world * res uerr unit) : world * res uerr unit :=
  match x with
  | (w, Ok a) => k a w
  | (w, Err e) => (w, Err (UHost e))
  | (w, Panic p) => (w, Panic p)
  | (w, OutOfFuel) => (w, OutOfFuel)
  end.

(** cmd_unpack.rs:44-67 and 130-153; [dup] says whether [try_clone] succeeds. *)
Definition copy_file_dup (dup : bool) (cwd : list str) (ip : list str) (base : N) (s : str) (x : ddata) (w : world) : world * res uerr unit :=
  ucall (open_trunc cwd s w) (fun p w =>
  if region_is_empty (d_region x) then (w, Ok tt)
  else if dup then uhost (write_new p (file_data (image_now ip w) base (d_region x)) w)
  else uread (read_data_all (offset_dev (file_dev (image_now ip w)) base) x) w (fun data => uhost (write_new p data w))).

(** cmd_unpack.rs:20-68; [dup] is asked for every entry, in order. *)
Fixpoint copyout_loop_dup (dup : nat -> bool) (cwd : list str) (ip : list str) (base : N) (dest : str) (tree : list (str * dentry)) (w : world) : world * res uerr unit :=
  match tree with
  | [] => (w, Ok tt)
  | (dir, e) :: tree =>
      let dirname := pjoin dest (trim_start dir) in
      let file_path := pjoin dirname (name_str e) in
      ucall (create_dir_all cwd dirname w) (fun _ w =>
      match (if is_directory (d_dirent (e_node e)) then uhost (create_dir cwd file_path w)
             else if d_namelen (d_dirent (e_node e)) =? 0 then (w, Ok tt)
             else copy_file_dup (dup 0%nat) cwd ip base file_path (d_dirent (e_node e)) w) with
      | (w, Ok _) => copyout_loop_dup (fun k => dup (S k)) cwd ip base dest tree w
      | (w, Err e) => (w, Err e)
      | (w, Panic p) => (w, Panic p)
      | (w, OutOfFuel) => (w, OutOfFuel)
      end)
  end.

(** cmd_unpack.rs:13-71. *)
Definition copyout_directory_dup (fuel : nat) (dup : nat -> bool) (cwd : list str) (ip : list str) (base : N) (dest : str) (r : region) (w : world) : world * res uerr unit :=
  uread (file_tree fuel (offset_dev (file_dev (image_now ip w)) base) r) w (fun tree => copyout_loop_dup dup cwd ip base dest tree w).

(** cmd_unpack.rs:84-97 [cmd_unpack]. *)
Definition unpack_dup (fuel : nat) (dup : nat -> bool) (cwd : list str) (image_path : str) (target : option str) (w : world) : world * res uerr unit :=
  match unpack_target image_path target with
  | Ok dest =>
      open_raw cwd image_path w (fun ip file =>
      uread (offset_wrapper_new (file_dev file)) w (fun base =>
      uread (read_volume (offset_dev (file_dev file) base)) w (fun v =>
      copyout_directory_dup fuel dup cwd ip base dest (v_root v) w)))
  | Err e => (w, Err e)
  | Panic p => (w, Panic p)
  | OutOfFuel => (w, OutOfFuel)
  end.

(** cmd_unpack.rs:113-156 [cmd_copyout]. *)
Definition copyout_dup (fuel : nat) (dup : nat -> bool) (cwd : list str) (image_path src dest : str) (w : world) : world * res uerr unit :=
  open_raw cwd image_path w (fun ip file =>
  uread (offset_wrapper_new (file_dev file)) w (fun base =>
  let d := offset_dev (file_dev file) base in
  uread (read_volume d) w (fun v =>
  if str_eqb src [SLASH] then copyout_directory_dup fuel dup cwd ip base dest (v_root v) w
  else uread (walk_path fuel d (v_root v) src) w (fun e =>
       match dirent_table (d_dirent (e_node e)) with
       | Some t => copyout_directory_dup fuel dup cwd ip base dest t w
       | None => copy_file_dup (dup 0%nat) cwd ip base dest (d_dirent (e_node e)) w
       end)))).
