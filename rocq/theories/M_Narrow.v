(** The places where the width of [usize] matters, on a 32-bit platform (wasm32 in the
    browser, 32-bit builds of the tools). Everywhere else the model is that of 64-bit
    platforms, and casts to [usize] are from values of at most 32 bits. A slice on a
    32-bit platform has less than 2^31 bytes. *)
From Verif Require Import M_Base M_Util M_Layout M_Read M_Check M_Cli.
From Coq Require Import Init.Byte.
Local Open Scope N_scope.

(** [x as usize]. *)
Definition narrow (n : N) : N := n mod 4294967296.
(** Addition of [usize]. *)
Definition narrow_add (m : build) {E} (a b : N) : res E N :=
  if a + b <? 4294967296 then Ok (a + b) else match m with Debug => Panic POverflow | Release => Ok (narrow (a + b)) end.

(** blockdev.rs:54-69 [BlockDeviceRead for [u8]]; line 60 is the cast. *)
Definition mem_dev32 (img : list byte) : dev := fun offset n => mem_dev img (narrow offset) n.

(** layout.rs:249-268 [read_data_all]: a vector of 2^31 bytes or more cannot be
    allocated ("capacity overflow", line 253). *)
Definition read_data_all32 (d : dev) (x : ddata) : res rerr (list byte) :=
  if r_size (d_region x) <? 2147483648 then read_data_all d x else Panic POverflow.

(** read.rs:248-281 [scan_dirent_tree]; line 278 is the addition. *)
Definition scan_dirent_tree32 (m : build) (d : dev) (r : region) : res rerr scan :=
  if region_is_empty r then Ok (mkScan 0 (fill 2048 xff) 0 0)
  else
    let* off := region_offset r 0 in
    let* b := io (d off 2048) in
    let* e := narrow_add m (r_sector r) ((r_size r + 2047) / 2048) in
    Ok (mkScan (r_sector r) b 0 e).
Definition scan_all32 (m : build) (fuel : nat) (d : dev) (r : region) : res rerr (list dentry) :=
  let* s := scan_dirent_tree32 m d r in collect_scan fuel d s.

(** checksum.rs:11-42. *)
Definition checksum_step32 (d : dev) (h : list byte) (x : str * dentry) : res rerr (list byte) :=
  let h := h ++ as_bytes (fst x) in
  if is_directory (d_dirent (e_node (snd x))) then Ok h
  else let* data := read_data_all32 d (d_dirent (e_node (snd x))) in Ok (h ++ data).
Definition checksum32 (H : list byte -> list byte) (fuel : nat) (d : dev) (v : volume) : res rerr (list byte) :=
  let* tree := file_tree fuel d (v_root v) in
  let* h := foldM (checksum_step32 d) [] (checksum_map tree) in
  Ok (H h).

(** cmd_read.rs:76-92, the sum of the sizes in [cmd_tree]. *)
Definition total32 (m : build) (tree : list (str * dentry)) : res rerr N :=
  foldM (fun n x => narrow_add m n (tree_size x)) 0 tree.
