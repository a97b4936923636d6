(** The browser back end of xdvdfs-web once more, with offsets and sizes as 64-bit floating
    point numbers where the code passes them to the browser. *)
From Verif Require Import M_Base M_Util M_Layout M_Read M_Img M_Dev M_Trie M_Xfs M_Lin M_Cli M_Unpack M_Host M_Web.
From Coq Require Import Init.Byte.
Local Open Scope N_scope.

(** [n as f64] for a u64: 53 significant bits, to the nearest, ties to even. The result
    is an integer again. *)
Definition as_f64 (n : N) : N :=
  let e := N.size n - 53 in
  if e =? 0 then n
  else let q := N.shiftr n e in
       let r := n mod 2 ^ e in
       let half := 2 ^ (e - 1) in
       N.shiftl (if (half <? r) || ((r =? half) && N.odd q) then q + 1 else q) e.
(** [a + b] of such numbers. *)
Definition fadd (a b : N) : N := as_f64 (a + b).

(** Blob.slice: what there is between two positions. *)
Definition blob (file : list byte) (start stop : N) : list byte := slice file start (stop - start).

(** fs/mod.rs:59-88 [BlockDeviceRead for FileSystemFileHandle]. *)
Definition f64_dev (file : list byte) : dev := fun offset n =>
  let o := as_f64 offset in
  let b := blob file o (fadd o (as_f64 n)) in
  if len b =? n then Ok b else Err UnexpectedEof.

(** fs/mod.rs:35-57 [BlockDeviceWrite for FSWriteWrapper]: only the position to which the
    stream is moved is a floating point number. *)
Definition f64_write (quota : option N) (w : web) (off : N) (b : list byte) : web * res ioerr unit :=
  if over quota (as_f64 off + len b) then (w, Err (IoOther 2000))
  else (mkWeb (stream_write (ws_data w) (as_f64 off) b) (N.max (ws_len w) (off + len b)), Ok tt).
Definition f64_wdev (quota : option N) : wdev web := mkWdev _ (f64_write quota) (fun w => (w, Ok (ws_len w))).

(** fs/mod.rs:165-207 [FilesystemCopier<FSWriteWrapper>]. *)
Definition f64_copy (quota : option N) (t : ftree) (p : path) (w : web) (input output size : N) : web * res ioerr N :=
  match web_walk t p with
  | None => (w, Err (IoOther 2002))
  | Some (FDir _) => (w, Err (IoOther 2003))
  | Some (FFile b) =>
      let b := blob b (as_f64 input) (as_f64 (input + size)) in
      if len b =? size
      then let (w, r) := f64_write quota w output b in (w, let* _ := r in Ok (len b))
      else (w, Panic PAssert)
  end.
(** fs/mod.rs:210-259 [FilesystemCopier<[u8]>]. *)
Definition f64_copy_slice (t : ftree) (p : path) (dest : list byte) (input output size : N) : list byte * res ioerr N :=
  match web_walk t p with
  | None => (dest, Err (IoOther 2002))
  | Some (FDir _) => (dest, Err (IoOther 2003))
  | Some (FFile b) =>
      let size := N.min (len b) (N.min size (len dest)) in
      let buf := blob b (as_f64 input) (fadd (as_f64 input) (as_f64 size)) in
      if len dest <? output then (dest, Panic POverflow)
      else let n := N.min (len dest - output) (len buf) in
           (firstn (N.to_nat output) dest ++ slice buf 0 n ++ fill (len dest - output - n) x00, Ok (len dest))
  end.
Definition f64_fs (quota : option N) (t : ftree) : fsys web := mkFsys _ (web_read_dir (populate t)) (f64_copy quota (populate t)).
Definition f64_slice_fs (t : ftree) : fsys (list byte) := mkFsys _ (web_read_dir (populate t)) (f64_copy_slice (populate t)).

(** ops/browser.rs:95-114 [pack_image], as in M_Web. *)
Definition f64_pack (fuel : nat) (m : build) (quota : option N) (t : ftree) (old : list byte) : list byte * list event * res werr unit :=
  web_close old (create_xdvdfs_image fuel m (f64_wdev quota) (f64_fs quota t) (web_new, [])).
Definition f64_repack (fuel : nat) (m : build) (quota : option N) (file : list byte) (old : list byte) : list byte * list event * res werr unit :=
  match offset_wrapper_new (f64_dev file) with
  | Ok base => let d := offset_dev (f64_dev file) base in
               web_close old (repack fuel m (f64_wdev quota) d (default_copier d (f64_wdev quota)) (web_new, []))
  | Err e => (old, [], Err (FilesystemHierarchyError (IoOther 2004)))
  | Panic p => (old, [], Panic p)
  | OutOfFuel => (old, [], OutOfFuel)
  end.

(** ops/browser.rs:155-165: the data of a file, sliced from the image file. *)
Definition f64_data (file : list byte) (base : N) (r : region) : list byte :=
  let o := as_f64 base in
  let start := fadd o (as_f64 (SECTOR_SIZE * r_sector r)) in
  blob file start (fadd start (as_f64 (r_size r))).
(** ops/browser.rs:135-184, as in M_Web. *)
Fixpoint f64_unpack_loop (fuel wf : nat) (accepts : str -> bool) (file : list byte) (base : N) (stack : list (list str * dentry)) (count : N)
    (w : world) (evs : list event) : world * list event * res uerr unit :=
  match stack with
  | [] => (w, evs, Ok tt)
  | (parent, e) :: stack =>
      match fuel with
      | O => (w, evs, OutOfFuel)
      | S fuel =>
          let n := name_str e in
          let r := d_region (d_dirent (e_node e)) in
          match dirent_table (d_dirent (e_node e)) with
          | Some tab =>
              run_host (create_directory accepts parent n w) evs (fun dir w =>
              run_read (walk_dirent_tree wf (offset_dev (f64_dev file) base) tab) w evs (fun es =>
              f64_unpack_loop fuel wf accepts file base (push_entries dir es stack) (count + len es) w
                (evs ++ [EFileCount (count + len es); EFileAdded [n] (r_size r)])))
          | None =>
              run_host (create_file accepts parent n w) evs (fun p w =>
              if r_size r =? 0 then f64_unpack_loop fuel wf accepts file base stack count w evs
              else run_host (replace_file p (f64_data file base r) w) evs (fun _ w =>
                   f64_unpack_loop fuel wf accepts file base stack count w (evs ++ [EFileAdded [n] (r_size r)])))
          end
      end
  end.
(** ops/browser.rs:116-187 [unpack_image], as in M_Web. *)
Definition f64_unpack (fuel : nat) (accepts : str -> bool) (file : list byte) (dest : list str) (w : world) : world * list event * res uerr unit :=
  run_read (offset_wrapper_new (f64_dev file)) w [] (fun base =>
  let d := offset_dev (f64_dev file) base in
  run_read (read_volume d) w [] (fun v =>
  run_read (walk_dirent_tree fuel d (v_root v)) w [] (fun es =>
  f64_unpack_loop fuel fuel accepts file base (push_entries dest es []) (len es) w [EFileCount (len es)]))).
