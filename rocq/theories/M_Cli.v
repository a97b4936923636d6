(** Model of the read commands of xdvdfs-cli: cmd_read.rs, cmd_md5.rs and
    cmd_info.rs, on an image file that is not compressed. The output of a command
    is the list of its lines. *)
From Verif Require Import M_Base M_Util M_Layout M_Read M_Check M_Remap.
From Coq Require Import Init.Byte.
From Coq Require Import Strings.String.
From Coq Require Import List.
From Coq Require Strings.Ascii.
Local Close Scope string_scope.
Local Open Scope N_scope.

(** Text literals. *)
Definition text (s : String.string) : str := map Ascii.N_of_ascii (String.list_ascii_of_string s).

(** The lines printed so far and the outcome. *)
Definition output : Type := list str * res rerr unit.
Definition say (line : str) (k : output) : output := (line :: fst k, snd k).
(** [let x = r?; k]. *)
Definition try {A} (r : res rerr A) (k : A -> output) : output :=
  match r with
  | Ok a => k a
  | Err e => ([], Err e)
  | Panic p => ([], Panic p)
  | OutOfFuel => ([], OutOfFuel)
  end.
(** Running one command after another. *)
Definition andthen (a b : output) : output :=
  match snd a with
  | Ok _ => (fst a ++ fst b, snd b)
  | _ => a
  end.
Definition done : output := ([], Ok tt).
Definition say_all (lines : list str) : output := fold_right say done lines.

(** img.rs:32-37 [open_image_raw] and img.rs:73-76: the device behind the offset
    wrapper. Errors of opening the file are not modelled, nor is img.rs:43-72
    (compressed images). *)
Definition open_image (file : list byte) : res rerr dev :=
  let* base := offset_wrapper_new (file_dev file) in Ok (offset_dev (file_dev file) base).

(** cmd_read.rs:28-39: the table that a path selects. The error "Not a
    directory" is represented by [IsNotDirectory]. *)
Definition select_table (fuel : nat) (d : dev) (v : volume) (path : str) : res rerr region :=
  if str_eqb path [SLASH] then Ok (v_root v)
  else let* e := walk_path fuel d (v_root v) path in ok_or (dirent_table (d_dirent (e_node e))) IsNotDirectory.

(** cmd_read.rs:41-50, the scan loop. *)
Fixpoint ls_scan (fuel : nat) (d : dev) (s : scan) : output :=
  match fuel with
  | O => ([], OutOfFuel)
  | S fuel' => try (next_entry fuel d s) (fun x =>
      match fst x with
      | None => done
      | Some e => say (name_str e) (ls_scan fuel' d (snd x))
      end)
  end.

(** cmd_read.rs:23-60 [cmd_ls]. *)
Definition cmd_ls (fuel : nat) (file : list byte) (path : str) (scan : bool) : output :=
  try (open_image file) (fun d =>
  try (read_volume d) (fun v =>
  try (select_table fuel d v path) (fun t =>
  if scan then try (scan_dirent_tree d t) (ls_scan fuel d)
  else try (walk_dirent_tree fuel d t) (fun es => say_all (map name_str es))))).

(** cmd_read.rs:79-90, one line of [cmd_tree]. *)
Definition tree_line (x : str * dentry) : str :=
  let (dir, e) := x in
  if is_directory (d_dirent (e_node e)) then dir ++ [SLASH] ++ name_str e ++ text "/ (0 bytes)"
  else dir ++ [SLASH] ++ name_str e ++ text " (" ++ decimal (r_size (d_region (d_dirent (e_node e)))) ++ text " bytes)".
(** The sums are 64-bit and bounded by the number of entries times 2^32. *)
Definition tree_size (x : str * dentry) : N :=
  if is_directory (d_dirent (e_node (snd x))) then 0 else r_size (d_region (d_dirent (e_node (snd x)))).
Definition tree_file (x : str * dentry) : N :=
  if is_directory (d_dirent (e_node (snd x))) then 0 else 1.

(** cmd_read.rs:69-98 [cmd_tree]; [name] is the path of the image as given. *)
Definition cmd_tree (fuel : nat) (name : str) (file : list byte) : output :=
  try (open_image file) (fun d =>
  try (read_volume d) (fun v =>
  try (file_tree fuel d (v_root v)) (fun tree =>
  say_all (map tree_line tree ++
    [decimal (fold_left N.add (map tree_file tree) 0) ++ text " files, "
     ++ decimal (fold_left N.add (map tree_size tree) 0) ++ text " bytes in " ++ name])))).

(** Hexadecimal digits: [{:x}] of a digest and [{:02x}] of each byte. *)
Definition hex_digit (n : N) : N := if n <? 10 then 48 + n else 87 + n.
Definition hex (l : list byte) : str := concat (map (fun b => [hex_digit (b2n b / 16); hex_digit (b2n b mod 16)]) l).

(** cmd_read.rs:110-122 [checksum_single]. *)
Definition checksum_single (H : list byte -> list byte) (fuel : nat) (name : str) (file : list byte) : output :=
  try (open_image file) (fun d =>
  try (read_volume d) (fun v =>
  try (checksum H fuel d v) (fun sum => say (hex sum ++ [9] ++ name) done))).
(** cmd_read.rs:124-141 [cmd_checksum] without the warnings on stderr. *)
Fixpoint cmd_checksum (H : list byte -> list byte) (fuel : nat) (images : list (str * list byte)) : output :=
  match images with
  | [] => done
  | (name, file) :: images => andthen (checksum_single H fuel name file) (cmd_checksum H fuel images)
  end.

(** cmd_md5.rs:18-30 [md5_file_dirent]; [H] is MD5. *)
Definition md5_file_dirent (H : list byte -> list byte) (d : dev) (e : dentry) : res rerr str :=
  let* b := read_data_all d (d_dirent (e_node e)) in Ok (hex (H b)).

(** cmd_md5.rs:39-45. *)
Definition md5_dir (base dir : str) : str :=
  match base, dir with
  | [], _ => dir
  | _, [] => base
  | _, _ => base ++ [SLASH] ++ dir
  end.

(** cmd_md5.rs:32-52 [md5_file_tree]. *)
Fixpoint md5_file_tree (H : list byte -> list byte) (d : dev) (tree : list (str * dentry)) (base : str) : output :=
  match tree with
  | [] => done
  | (dir, e) :: tree =>
      try (md5_file_dirent H d e) (fun sum =>
      say (sum ++ text "  " ++ md5_dir base dir ++ [SLASH] ++ name_str e) (md5_file_tree H d tree base))
  end.

(** cmd_md5.rs:54-79 [md5_from_file_path], [md5_from_root_tree] and cmd_md5.rs:81-93 [cmd_md5]. *)
Definition md5_from_file_path (H : list byte -> list byte) (fuel : nat) (d : dev) (v : volume) (path : str) : output :=
  try (walk_path fuel d (v_root v) path) (fun e =>
  match dirent_table (d_dirent (e_node e)) with
  | Some t => try (file_tree fuel d t) (fun tree => md5_file_tree H d tree path)
  | None => try (md5_file_dirent H d e) (fun sum => say (sum ++ text "  " ++ path) done)
  end).
Definition cmd_md5 (H : list byte -> list byte) (fuel : nat) (file : list byte) (path : option str) : output :=
  try (open_image file) (fun d =>
  try (read_volume d) (fun v =>
  match path with
  | Some path => md5_from_file_path H fuel d v path
  | None => try (file_tree fuel d (v_root v)) (fun tree => md5_file_tree H d tree [])
  end)).

(** [{0: <20} ]: padded to 20 columns, and a blank. *)
Definition label (s : String.string) : str := text s ++ fill (20 - len (text s)) 32 ++ [32].


(** layout.rs:180-213 [Display for DirentAttributes]. *)
Fixpoint join_blank (l : list str) : str :=
  match l with
  | [] => []
  | [s] => s
  | s :: l => s ++ [32] ++ join_blank l
  end.
Definition show_attrs (a : N) : str :=
  let f (i : N) (s : str) := if N.testbit a i then [s] else [] in
  join_blank (f 4 (text "Directory") ++ f 0 (text "Read-Only") ++ f 1 (text "Hidden") ++ f 2 (text "System") ++ f 5 (text "Archive") ++ f 7 (text "Normal")).

(** cmd_info.rs:41-58: [4 * offset] is computed on u16. *)
Definition child_bytes (m : build) (o : N) : res rerr str :=
  if o =? 0 then Ok (text "None")
  else let* b := (if 4 * o <? 65536 then Ok (4 * o)
                  else match m with Debug => Panic POverflow | Release => Ok ((4 * o) mod 65536) end) in
       Ok (decimal b ++ text " bytes").

(** cmd_info.rs:37-69 [print_dirent]. *)
Definition print_dirent (m : build) (e : dentry) : output :=
  say (label "Name:" ++ name_str e) (
  say (label "Offset:" ++ decimal (e_offset e)) (
  try (child_bytes m (d_left (e_node e))) (fun l =>
  say (label "Left Child Offset:" ++ l) (
  try (child_bytes m (d_right (e_node e))) (fun r =>
  say (label "Right Child Offset:" ++ r) (
  say (label "Data Location:" ++ text "Sector " ++ decimal (r_sector (d_region (d_dirent (e_node e))))
       ++ text " (" ++ decimal (r_size (d_region (d_dirent (e_node e)))) ++ text " bytes)") (
  say (label "Attributes:" ++ show_attrs (d_attrs (d_dirent (e_node e)))) done))))))).

(** cmd_info.rs:71-85 [print_subdir]. *)
Fixpoint print_nodes (m : build) (es : list dentry) : output :=
  match es with
  | [] => done
  | e :: es => say (name_str e) (andthen (print_dirent m e) (say [] (print_nodes m es)))
  end.
Definition print_subdir (m : build) (fuel : nat) (d : dev) (r : region) : output :=
  try (walk_dirent_tree fuel d r) (print_nodes m).

(** cmd_info.rs:24-35 [print_volume]. *)
Definition print_volume (v : volume) : output :=
  say (label "Valid:" ++ text (if volume_is_valid v then "true" else "false")) (
  say (label "Creation time:" ++ decimal (v_filetime v)) (
  say (label "Root Entry:" ++ text "Sector " ++ decimal (r_sector (v_root v)) ++ text " (" ++ decimal (r_size (v_root v)) ++ text " bytes)") done)).

(** cmd_info.rs:87-111 [cmd_info]. *)
Definition cmd_info (m : build) (fuel : nat) (file : list byte) (entry : option str) : output :=
  try (open_image file) (fun d =>
  try (read_volume d) (fun v =>
  match entry with
  | None => print_volume v
  | Some path =>
      if str_eqb path [SLASH] then print_subdir m fuel d (v_root v)
      else try (walk_path fuel d (v_root v) path) (fun e =>
           andthen (print_dirent m e)
             (match dirent_table (d_dirent (e_node e)) with
              | Some t => say [] (print_subdir m fuel d t)
              | None => done
              end))
  end)).
