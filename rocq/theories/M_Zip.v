(** Reading compressed images with xdvdfs-cli: img.rs:10-31 [CSOBlockDevice] and
    img.rs:43-72, the part of [open_image] for files whose name ends in ".cso" (which files
    these are: M_Cso). The crate ciso is not part of the repository: its reader is an
    arbitrary device, what it reads is specified in S_Zip. *)
From Verif Require Import M_Base M_Util M_Layout M_Read M_Img M_Check M_Remap M_Cli.
From Coq Require Import Init.Byte Strings.String.
From Coq Require Import List.
Local Close Scope string_scope.
Local Open Scope N_scope.

(** The commands that use [open_image], with their arguments. *)
Inductive reading :=
| Ls (path : str) (scan : bool)
| Tree (name : str)
| Info (entry : option str)
| Md5 (path : option str)
| Checksum (name : str).

Section Reading.
Context (m : build) (H : list byte -> list byte) (fuel : nat).

(** What they do with the opened image: cmd_read.rs:26-60, 72-98 and 113-122,
    cmd_md5.rs:84-93, cmd_info.rs:90-111. *)
Definition on_device (c : reading) (d : dev) : output :=
  match c with
  | Ls path scan =>
      try (read_volume d) (fun v =>
      try (select_table fuel d v path) (fun t =>
      if scan then try (scan_dirent_tree d t) (ls_scan fuel d)
      else try (walk_dirent_tree fuel d t) (fun es => say_all (map name_str es))))
  | Tree name =>
      try (read_volume d) (fun v =>
      try (file_tree fuel d (v_root v)) (fun tree =>
      say_all (map tree_line tree ++
        [decimal (fold_left N.add (map tree_file tree) 0) ++ text " files, "
         ++ decimal (fold_left N.add (map tree_size tree) 0) ++ text " bytes in " ++ name])))
  | Info entry =>
      try (read_volume d) (fun v =>
      match entry with
      | None => print_volume v
      | Some path =>
          if str_eqb path [SLASH] then print_subdir m fuel d (v_root v)
          else try (walk_path fuel d (v_root v) path) (fun e =>
               andthen (print_dirent m e)
                 (match dirent_table (d_dirent (e_node e)) with
                  | Some t => say [] (print_subdir m fuel d t)
                  | None => done
                  end))
      end)
  | Md5 path =>
      try (read_volume d) (fun v =>
      match path with
      | Some path => md5_from_file_path H fuel d v path
      | None => try (file_tree fuel d (v_root v)) (fun tree => md5_file_tree H d tree [])
      end)
  | Checksum name =>
      try (read_volume d) (fun v =>
      try (checksum H fuel d v) (fun sum => say (hex sum ++ [9] ++ name) done))
  end.

(** img.rs:73-76: the file is searched for a partition. *)
Definition on_plain (c : reading) (file : list byte) : output := try (open_image file) (on_device c).
(** img.rs:43-72: the reader of the crate is used as it is. *)
Definition on_compressed (c : reading) (z : dev) : output := try (Ok z) (on_device c).
End Reading.
