(** Unpacking onto a host whose file system does not distinguish some characters, such
    as upper and lower case letters (the default on macOS; also FAT, exFAT and NTFS
    volumes, and ext4 directories with casefold). Such a host looks every name up by its
    folded form, so the host of M_Host is used with the folded form of every path that is
    handed to it. Which spelling a directory listing shows is not modelled, nor is
    Unicode normalisation. [foldc] folds one character. *)
From Verif Require Import M_Base M_Util M_Layout M_Read M_Cli M_Host M_Unpack.
From Coq Require Import Init.Byte.
Local Open Scope N_scope.

(** cmd_unpack.rs:20-68, the loop of [copyout_directory]; compare [copyout_loop]. *)
Fixpoint fold_loop (foldc : N -> N) (cwd : list str) (file : list byte) (base : N) (dest : str) (tree : list (str * dentry)) : hprog unit :=
  match tree with
  | [] => hret tt
  | (dir, e) :: tree =>
      let dirname := pjoin dest (trim_start dir) in
      let file_path := map foldc (pjoin dirname (name_str e)) in
      hbind (create_dir_all cwd (map foldc dirname)) (fun _ =>
      hbind (if is_directory (d_dirent (e_node e)) then create_dir cwd file_path
             else if d_namelen (d_dirent (e_node e)) =? 0 then hret tt
             else copy_file cwd file base file_path (d_region (d_dirent (e_node e)))) (fun _ =>
      fold_loop foldc cwd file base dest tree))
  end.

(** cmd_unpack.rs:13-71 [copyout_directory]. *)
Definition fold_directory (foldc : N -> N) (fuel : nat) (cwd : list str) (file : list byte) (base : N) (dest : str) (r : region) (w : world) : world * res uerr unit :=
  uread (file_tree fuel (offset_dev (file_dev file) base) r) w (fun tree => uhost (fold_loop foldc cwd file base dest tree w)).

(** cmd_unpack.rs:84-97 [cmd_unpack] with the destination [dest]. *)
Definition fold_unpack (foldc : N -> N) (fuel : nat) (cwd : list str) (file : list byte) (dest : str) (w : world) : world * res uerr unit :=
  uread (offset_wrapper_new (file_dev file)) w (fun base =>
  uread (read_volume (offset_dev (file_dev file) base)) w (fun v =>
  fold_directory foldc fuel cwd file base dest (v_root v) w)).

(** The simple case folding of Unicode, for the characters of windows-1252 up to
    U+00FF: the letters a to z and U+00E0 to U+00FE without the division sign. *)
Definition latin_fold (c : N) : N :=
  if ((97 <=? c) && (c <=? 122)) || ((224 <=? c) && (c <=? 254) && negb (c =? 247)) then c - 32 else c.
