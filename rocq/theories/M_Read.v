(** Model of xdvdfs-core/src/read.rs and of the read side of layout.rs and
    blockdev.rs. *)
From Verif Require Import M_Base M_Util M_Layout.
From Coq Require Import Init.Byte.
Local Open Scope N_scope.

(** blockdev.rs:16-25 [BlockDeviceRead::read(offset, buffer)]: the outcome of
    filling a buffer of the given length. Reads do not change the contents of a
    device, so a device is a function. *)
Definition dev := N -> N -> res ioerr (list byte).

(** blockdev.rs:54-69 [BlockDeviceRead for [u8]]: [copy_from_slice] panics when
    the slice is shorter than the buffer. *)
Definition mem_dev (img : list byte) : dev := fun offset n =>
  if len img <=? offset then Err OutOfBounds
  else if N.min (len img - offset) n =? n then Ok (slice img offset n)
       else Panic PIndex.

(** blockdev.rs:227-241 [BlockDeviceRead for R: Read + Seek] on a file or cursor
    holding [img]: seeking past the end is allowed, [read_exact] fails at the end
    of the data. *)
Definition file_dev (img : list byte) : dev := fun offset n =>
  if n =? 0 then Ok []
  else if offset + n <=? len img then Ok (slice img offset n)
       else Err UnexpectedEof.

(** blockdev.rs:187-199 [BlockDeviceRead for OffsetWrapper]. The u64 sum cannot
    overflow for offsets below 2^63. *)
Definition offset_dev (d : dev) (base : N) : dev := fun offset n => d (offset + base) n.

(** The error conversion of [map_err(util::Error::IOError)] and [?]. *)
Definition io {A} (r : res ioerr A) : res rerr A := map_err IOError r.

(** read.rs:92-109 [read_volume]. *)
Definition read_volume (d : dev) : res rerr volume :=
  let* buffer := map_err (fun _ => InvalidVolume) (d (SECTOR_SIZE * 32) 2048) in
  let v := volume_de buffer in
  if volume_is_valid v then Ok v else Err InvalidVolume.

(** blockdev.rs:8-13 [XDVD_OFFSETS]. *)
Definition XDVD_OFFSETS : list N := [0; 405798912; 265879552; 34078720].

(** blockdev.rs:146-172 [OffsetWrapper::new]: returns the selected offset. *)
Fixpoint probe (d : dev) (offsets : list N) : res rerr N :=
  match offsets with
  | [] => Err InvalidVolume
  | o :: os => match read_volume (offset_dev d o) with
               | Ok _ => Ok o
               | Err _ => probe d os
               | Panic p => Panic p
               | OutOfFuel => OutOfFuel
               end
  end.
Definition offset_wrapper_new (d : dev) : res rerr N := probe d XDVD_OFFSETS.

(** read.rs:111-130 [deserialize_dirent_node]: the name is still zero. *)
Definition deserialize_dirent_node (b : list byte) (offset : N) : option dentry :=
  if bytes_eqb b (fill 14 xff) || bytes_eqb b (fill 14 x00) then None
  else Some (mkDentry (dnode_de b) (fill 256 x00) offset).

(** Storing the name into the first bytes of the 256-byte array. *)
Definition with_name (e : dentry) (name : list byte) : dentry :=
  mkDentry (e_node e) (name ++ skipn (length name) (e_name e)) (e_offset e).

(** read.rs:132-154 [read_dirent]. *)
Definition read_dirent (d : dev) (offset : N) : res rerr (option dentry) :=
  let* b := io (d offset 14) in
  match deserialize_dirent_node b offset with
  | None => Ok None
  | Some e =>
      let* name := io (d (offset + 14) (d_namelen (d_dirent (e_node e)))) in
      Ok (Some (with_name e name))
  end.

(** read.rs:156-167 [root_dirent]. *)
Definition root_dirent (d : dev) (v : volume) : res rerr (option dentry) :=
  if region_is_empty (v_root v) then Err DirectoryEmpty
  else let* off := region_offset (v_root v) 0 in read_dirent d off.

(** read.rs:182-205, the search loop of [find_dirent] from an absolute offset. *)
Fixpoint find_loop (fuel : nat) (d : dev) (r : region) (name : str) (offset : N) : res rerr dentry :=
  match fuel with
  | O => OutOfFuel
  | S fuel =>
      let* o := read_dirent d offset in
      let* e := ok_or o DoesNotExist in
      let next (p : N) :=
        if p =? 0 then Err DoesNotExist
        else let* offset := region_offset r (4 * p) in find_loop fuel d r name offset in
      match cmp_ignore_case_utf8 name (name_str e) with
      | Eq => Ok e
      | Lt => next (d_left (e_node e))
      | Gt => next (d_right (e_node e))
      end
  end.

(** read.rs:170-206 [find_dirent]. *)
Definition find_dirent (fuel : nat) (d : dev) (r : region) (name : str) : res rerr dentry :=
  if region_is_empty r then Err DirectoryEmpty
  else let* offset := region_offset r 0 in find_loop fuel d r name offset.

Definition SLASH : N := 47.

(** [str::trim_start_matches('/')]. *)
Fixpoint trim_start (s : str) : str :=
  match s with
  | c :: s' => if c =? SLASH then trim_start s' else s
  | [] => []
  end.

(** [str::split('/')]: the current piece and the rest. *)
Fixpoint split_slash (s : str) : list str :=
  match s with
  | [] => [[]]
  | c :: s' => if c =? SLASH then [] :: split_slash s'
               else match split_slash s' with
                    | p :: ps => (c :: p) :: ps
                    | [] => [[c]]
                    end
  end.

(** [str::split_terminator('/')]: drops the last piece when it is empty. *)
Definition split_terminator (s : str) : list str :=
  let ps := split_slash s in
  match rev ps with
  | [] :: r => rev r
  | _ => ps
  end.

(** read.rs:222-243, the loop over the path segments. *)
Fixpoint walk_segments (fuel : nat) (d : dev) (r : region) (segs : list str) : res rerr dentry :=
  match segs with
  | [] => Panic PUnreachable
  | s :: segs' =>
      let* e := find_dirent fuel d r s in
      match segs' with
      | [] => Ok e
      | _ => let* t := ok_or (dirent_table (d_dirent (e_node e))) IsNotDirectory in
             walk_segments fuel d t segs'
      end
  end.

(** read.rs:208-246 [walk_path]. *)
Definition walk_path (fuel : nat) (d : dev) (r : region) (path : str) : res rerr dentry :=
  match path with
  | [] => Err NoDirent
  | _ => if str_eqb path [SLASH] then Err NoDirent
         else walk_segments fuel d r (split_terminator (trim_start path))
  end.

(** read.rs:296-321, the stack loop of [walk_dirent_tree]; the head of [stack]
    is its top. [dirents] is in order of discovery. *)
Fixpoint walk_loop (fuel : nat) (d : dev) (r : region) (stack : list N) (dirents : list dentry) : res rerr (list dentry) :=
  match stack with
  | [] => Ok dirents
  | top :: stack =>
      match fuel with
      | O => OutOfFuel
      | S fuel =>
          let* offset := region_offset r top in
          let* o := read_dirent d offset in
          match o with
          | None => walk_loop fuel d r stack dirents
          | Some e =>
              let l := d_left (e_node e) in
              let stack := if (negb (l =? 0) && negb (l =? 0xffff)) then 4 * l :: stack else stack in
              let r' := d_right (e_node e) in
              let stack := if (negb (r' =? 0) && negb (r' =? 0xffff)) then 4 * r' :: stack else stack in
              walk_loop fuel d r stack (dirents ++ [e])
          end
      end
  end.

(** read.rs:283-322 [walk_dirent_tree]. *)
Definition walk_dirent_tree (fuel : nat) (d : dev) (r : region) : res rerr (list dentry) :=
  if region_is_empty r then Ok [] else walk_loop fuel d r [0] [].

(** read.rs:341-348: the subdirectories pushed while listing [parent]. *)
Definition push_dirs (parent : str) (children : list dentry) (stack : list (str * region)) : list (str * region) :=
  fold_left (fun st e =>
    match dirent_table (d_dirent (e_node e)) with
    | Some t => (parent ++ [SLASH] ++ name_str e, t) :: st
    | None => st
    end) children stack.

(** read.rs:324-353 [file_tree]. *)
Fixpoint file_tree_loop (fuel : nat) (d : dev) (stack : list (str * region)) (out : list (str * dentry)) : res rerr (list (str * dentry)) :=
  match stack with
  | [] => Ok out
  | (parent, tree) :: stack =>
      match fuel with
      | O => OutOfFuel
      | S fuel =>
          let* children := walk_dirent_tree fuel d tree in
          file_tree_loop fuel d (push_dirs parent children stack) (out ++ map (fun e => (parent, e)) children)
      end
  end.
Definition file_tree (fuel : nat) (d : dev) (r : region) : res rerr (list (str * dentry)) :=
  file_tree_loop fuel d [([], r)] [].

(** read.rs:8-14 [DirentScanIter] without the device. *)
Record scan := mkScan { s_sector : N; s_buf : list byte; s_offset : N; s_end : N }.

(** read.rs:18-35 [next_sector]. *)
Definition next_sector (d : dev) (s : scan) : res rerr scan :=
  let sector := s_sector s + 1 in
  if s_end s <=? sector then Ok (mkScan sector (s_buf s) 0 (s_end s))
  else let* b := io (d (sector * SECTOR_SIZE) 2048) in Ok (mkScan sector b 0 (s_end s)).

(** read.rs:45-77, the loop of [next_entry]. *)
Fixpoint next_loop (fuel : nat) (d : dev) (s : scan) : res rerr (option dentry * scan) :=
  match fuel with
  | O => OutOfFuel
  | S fuel =>
      let* _ := rassert (s_offset s + 14 <? SECTOR_SIZE) in
      let name_offset := s_offset s + 14 in
      match deserialize_dirent_node (slice (s_buf s) (s_offset s) 14) (s_offset s) with
      | None =>
          if s_sector s + 1 <? s_end s
          then let* s := next_sector d s in next_loop fuel d s
          else Ok (None, s)
      | Some e =>
          let name_len := d_namelen (d_dirent (e_node e)) in
          let* _ := rassert (name_offset + name_len <=? SECTOR_SIZE) in
          let e := with_name e (slice (s_buf s) name_offset name_len) in
          let offset := name_offset + name_len in
          let offset := offset + (4 - offset mod 4) mod 4 in
          let s := mkScan (s_sector s) (s_buf s) offset (s_end s) in
          let* s := (if SECTOR_SIZE <=? offset + 14 then next_sector d s else Ok s) in
          Ok (Some e, s)
      end
  end.

(** read.rs:37-79 [next_entry]. *)
Definition next_entry (fuel : nat) (d : dev) (s : scan) : res rerr (option dentry * scan) :=
  if s_end s <=? s_sector s then Ok (None, s) else next_loop fuel d s.

(** read.rs:248-281 [scan_dirent_tree]. *)
Definition scan_dirent_tree (d : dev) (r : region) : res rerr scan :=
  if region_is_empty r then Ok (mkScan 0 (fill 2048 xff) 0 0)
  else
    let* off := region_offset r 0 in
    let* b := io (d off 2048) in
    Ok (mkScan (r_sector r) b 0 (r_sector r + (r_size r + 2047) / 2048)).

(** A consumer that calls [next_entry] until it returns [None], as in
    xdvdfs.rs:264-279 and the FUSE and CLI listings. *)
Fixpoint collect_scan (fuel : nat) (d : dev) (s : scan) : res rerr (list dentry) :=
  match fuel with
  | O => OutOfFuel
  | S fuel' =>
      let* (o, s) := next_entry fuel d s in
      match o with
      | None => Ok []
      | Some e => let* es := collect_scan fuel' d s in Ok (e :: es)
      end
  end.
Definition scan_all (fuel : nat) (d : dev) (r : region) : res rerr (list dentry) :=
  let* s := scan_dirent_tree d r in collect_scan fuel d s.

(** layout.rs:232-247 [read_data] into a buffer of [n] bytes: an empty file
    leaves the buffer as it is. *)
Definition read_data (d : dev) (x : ddata) (buf : list byte) : res rerr (list byte) :=
  if r_size (d_region x) =? 0 then Ok buf
  else let* off := region_offset (d_region x) 0 in io (d off (len buf)).

(** layout.rs:249-268 [read_data_all]. *)
Definition read_data_all (d : dev) (x : ddata) : res rerr (list byte) :=
  let size := r_size (d_region x) in
  if size =? 0 then Ok []
  else let* off := region_offset (d_region x) 0 in io (d off size).

(** layout.rs:270-292 [read_data_offset]. *)
Definition read_data_offset (d : dev) (x : ddata) (size offset : N) : res rerr (list byte) :=
  let size := N.min size (r_size (d_region x)) in
  if r_size (d_region x) =? 0 then Ok (fill size x00)
  else let* off := region_offset (d_region x) offset in io (d off size).
