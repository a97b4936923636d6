(** Model of xdvdfs-cli cmd_unpack.rs. The messages are not modelled, nor is the
    fallback for a file handle that cannot be duplicated (cmd_unpack.rs:62-66,
    148-152). The bytes of the image do not change while it is unpacked. *)
From Verif Require Import M_Base M_Util M_Layout M_Read M_Cli M_Host.
From Coq Require Import Init.Byte.
Local Open Scope N_scope.

Inductive uerr := UHost (e : herr) | URead (e : rerr).

(** cmd_unpack.rs:54-61, 140-147: seek to the data and copy what is there, at most
    the size of the file; [file] is the image file and [base] the offset of the
    game partition (blockdev.rs:218-224). *)
Definition file_data (file : list byte) (base : N) (r : region) : list byte :=
  slice file (base + 2048 * r_sector r) (r_size r).

(** cmd_unpack.rs:44-61 and 130-147, for a file whose path is [s]. *)
Definition copy_file (cwd : list str) (file : list byte) (base : N) (s : str) (r : region) : hprog unit :=
  hbind (open_trunc cwd s) (fun p =>
  if region_is_empty r then hret tt else write_new p (file_data file base r)).

(** cmd_unpack.rs:20-68, the loop of [copyout_directory]. *)
Fixpoint copyout_loop (cwd : list str) (file : list byte) (base : N) (dest : str) (tree : list (str * dentry)) : hprog unit :=
  match tree with
  | [] => hret tt
  | (dir, e) :: tree =>
      let dirname := pjoin dest (trim_start dir) in
      let file_path := pjoin dirname (name_str e) in
      hbind (create_dir_all cwd dirname) (fun _ =>
      hbind (if is_directory (d_dirent (e_node e)) then create_dir cwd file_path
             else if d_namelen (d_dirent (e_node e)) =? 0 then hret tt
             else copy_file cwd file base file_path (d_region (d_dirent (e_node e)))) (fun _ =>
      copyout_loop cwd file base dest tree))
  end.

Definition uread {A} (r : res rerr A) (w : world) (k : A -> world * res uerr unit) : world * res uerr unit :=
  match r with
  | Ok a => k a
  | Err e => (w, Err (URead e))
  | Panic p => (w, Panic p)
  | OutOfFuel => (w, OutOfFuel)
  end.
Definition uhost (x : world * res herr unit) : world * res uerr unit := (fst x, map_err UHost (snd x)).

(** cmd_unpack.rs:13-71 [copyout_directory]. *)
Definition copyout_directory (fuel : nat) (cwd : list str) (file : list byte) (base : N) (dest : str) (r : region) (w : world) : world * res uerr unit :=
  uread (file_tree fuel (offset_dev (file_dev file) base) r) w (fun tree => uhost (copyout_loop cwd file base dest tree w)).

(** [Path::file_name] and [Path::with_extension("")]. *)
Definition file_name (s : str) : option str :=
  match rev (pcomps s) with c :: _ => if is_dotdot c then None else Some c | [] => None end.
(** The part before the last dot, unless nothing would be left. *)
Fixpoint drop_ext (s : str) : option str :=
  match s with
  | [] => None
  | c :: s => match drop_ext s with
              | Some t => Some (c :: t)
              | None => if c =? DOT then Some [] else None
              end
  end.
Definition file_stem (s : str) : str := match drop_ext s with Some (c :: t) => c :: t | _ => s end.

(** cmd_unpack.rs:84-97 [cmd_unpack] on the image [file] found at [image_path]. *)
Definition unpack_target (image_path : str) (target : option str) : res uerr str :=
  match target with
  | Some p => Ok p
  | None => let* n := unwrap (file_name image_path) in Ok (file_stem n)
  end.
Definition cmd_unpack (fuel : nat) (cwd : list str) (image_path : str) (file : list byte) (target : option str) (w : world) : world * res uerr unit :=
  match unpack_target image_path target with
  | Ok dest =>
      uread (offset_wrapper_new (file_dev file)) w (fun base =>
      uread (read_volume (offset_dev (file_dev file) base)) w (fun v =>
      copyout_directory fuel cwd file base dest (v_root v) w))
  | Err e => (w, Err e)
  | Panic p => (w, Panic p)
  | OutOfFuel => (w, OutOfFuel)
  end.

(** cmd_unpack.rs:113-156 [cmd_copyout]. *)
Definition cmd_copyout (fuel : nat) (cwd : list str) (file : list byte) (src dest : str) (w : world) : world * res uerr unit :=
  uread (offset_wrapper_new (file_dev file)) w (fun base =>
  let d := offset_dev (file_dev file) base in
  uread (read_volume d) w (fun v =>
  if str_eqb src [SLASH] then copyout_directory fuel cwd file base dest (v_root v) w
  else uread (walk_path fuel d (v_root v) src) w (fun e =>
       match dirent_table (d_dirent (e_node e)) with
       | Some t => copyout_directory fuel cwd file base dest t w
       | None => uhost (copy_file cwd file base dest (d_region (d_dirent (e_node e))) w)
       end))).
