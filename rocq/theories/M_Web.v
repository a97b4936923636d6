(** Model of the browser back end of xdvdfs-web: fs/mod.rs and ops/browser.rs. The
    browser follows the WHATWG File System standard: a writable stream keeps its
    data apart from the file until it is closed, and names of entries are checked.
    Handles are paths. Failures of reading the source and of opening a stream are
    not modelled; offsets are exact (f64 below 2^53). *)
From Verif Require Import M_Base M_Util M_Layout M_Read M_Img M_Dev M_Xfs M_Check M_Cli M_Unpack M_Host.
From Coq Require Import Init.Byte.
Local Open Scope N_scope.

(** ** Output streams *)
(** A FileSystemWritableFileStream (its data) with fs/mod.rs:15-18 [FSWriteWrapper]. *)
Record web := mkWeb { ws_data : list byte; ws_len : N }.
(** fs/mod.rs:24-27 [FSWriteWrapper::new]: a new stream is empty. *)
Definition web_new : web := mkWeb [] 0.
(** "Write a chunk" after seeking to [off]: the gap is filled with zeros, even if
    there is nothing to write. *)
Definition stream_write (data : list byte) (off : N) (b : list byte) : list byte :=
  firstn (N.to_nat off) (data ++ fill (off - len data) x00) ++ b ++ skipn (N.to_nat (off + len b)) data.
(** A write fails if the data would need more than [quota]. *)
Definition over (quota : option N) (n : N) : bool := match quota with Some q => q <? n | None => false end.
(** fs/mod.rs:35-57 [BlockDeviceWrite for FSWriteWrapper]. *)
Definition web_write (quota : option N) (w : web) (off : N) (b : list byte) : web * res ioerr unit :=
  if over quota (off + len b) then (w, Err (IoOther 2000))
  else (mkWeb (stream_write (ws_data w) off b) (N.max (ws_len w) (off + len b)), Ok tt).
Definition web_wdev (quota : option N) : wdev web := mkWdev _ (web_write quota) (fun w => (w, Ok (ws_len w))).

(** ** Source directories *)
(** fs/mod.rs:96-119 [FSTree::populate]: [t] has the entries in the order in which
    the browser lists them; a BTreeMap holds them sorted. *)
Fixpoint populate (t : ftree) : ftree :=
  match t with
  | FFile b => FFile b
  | FDir cs =>
      FDir ((fix fill_in (cs : list (str * ftree)) (m : list (str * ftree)) : list (str * ftree) :=
               match cs with
               | [] => m
               | (n, c) :: cs => fill_in cs (smap_insert n (populate c) m)
               end) cs [])
  end.
(** fs/mod.rs:272-280 [walk]. *)
Definition web_walk (t : ftree) (p : path) : option ftree := lookup_tree p t.
(** fs/mod.rs:130-161 [read_dir] and 282-296 [entries]. *)
Definition web_entry (c : str * ftree) : fentry :=
  match snd c with
  | FFile b => mkFentry (fst c) TFile (len b)
  | FDir _ => mkFentry (fst c) TDirectory 0
  end.
Definition web_read_dir (t : ftree) (p : path) : res ioerr (list fentry) :=
  let* n := unwrap (web_walk t p) in
  match n with
  | FDir cs => Ok (map web_entry cs)
  | FFile _ => Err (IoOther 2001)
  end.
(** fs/mod.rs:165-207 [FilesystemCopier<FSWriteWrapper>]: a blob of the wanted range
    is written to the stream. *)
Definition web_copy (quota : option N) (t : ftree) (p : path) (w : web) (input output size : N) : web * res ioerr N :=
  match web_walk t p with
  | None => (w, Err (IoOther 2002))
  | Some (FDir _) => (w, Err (IoOther 2003))
  | Some (FFile b) =>
      let blob := slice b input size in
      if len blob =? size
      then let (w, r) := web_write quota w output blob in (w, let* _ := r in Ok (len blob))
      else (w, Panic PAssert)
  end.
(** fs/mod.rs:210-259 [FilesystemCopier<[u8]>]; the rest of the buffer becomes zero. *)
Definition web_copy_slice (t : ftree) (p : path) (dest : list byte) (input output size : N) : list byte * res ioerr N :=
  match web_walk t p with
  | None => (dest, Err (IoOther 2002))
  | Some (FDir _) => (dest, Err (IoOther 2003))
  | Some (FFile b) =>
      let size := N.min (len b) (N.min size (len dest)) in
      let buf := slice b input size in
      if len dest <? output then (dest, Panic POverflow)
      else let n := N.min (len dest - output) (len buf) in
           (firstn (N.to_nat output) dest ++ slice buf 0 n ++ fill (len dest - output - n) x00, Ok (len dest))
  end.
(** fs/mod.rs:262-270 [WebFileSystem::new]. *)
Definition web_fs (quota : option N) (t : ftree) : fsys web := mkFsys _ (web_read_dir (populate t)) (web_copy quota (populate t)).
Definition web_slice_fs (t : ftree) : fsys (list byte) := mkFsys _ (web_read_dir (populate t)) (web_copy_slice (populate t)).

(** ** Packing *)
(** ops/browser.rs:22-41 [pack_image_impl]: the bytes of the output file [old] are
    replaced when the stream is closed, after success. *)
Definition web_close (old : list byte) (x : (web * list event) * res werr unit) : list byte * list event * res werr unit :=
  (match snd x with Ok _ => ws_data (fst (fst x)) | _ => old end, snd (fst x), snd x).
(** ops/browser.rs:95-114 [pack_image], from a directory and from an image. *)
Definition web_pack (fuel : nat) (m : build) (quota : option N) (t : ftree) (old : list byte) : list byte * list event * res werr unit :=
  web_close old (create_xdvdfs_image fuel m (web_wdev quota) (web_fs quota t) (web_new, [])).
Definition web_repack (fuel : nat) (m : build) (quota : option N) (file : list byte) (old : list byte) : list byte * list event * res werr unit :=
  match open_image file with
  | Ok d => web_close old (repack fuel m (web_wdev quota) d (default_copier d (web_wdev quota)) (web_new, []))
  | Err e => (old, [], Err (FilesystemHierarchyError (IoOther 2004)))
  | Panic p => (old, [], Panic p)
  | OutOfFuel => (old, [], OutOfFuel)
  end.

(** ** Unpacking *)
(** "Valid file name"; [accepts] are further rules of the browser or its platform. *)
Definition valid_name (accepts : str -> bool) (n : str) : bool :=
  negb (match n with [] => true | _ => is_dot n || is_dotdot n || existsb (N.eqb SLASH) n end) && accepts n.
(** getDirectoryHandle and getFileHandle with the option create (fs/util.rs:110-125). *)
Definition create_directory (accepts : str -> bool) (p : list str) (n : str) : hprog (list str) := fun w =>
  if negb (valid_name accepts n) then (w, Err HInvalidInput) else
  match w_fs w (p ++ [n]) with
  | Some HDir => (w, Ok (p ++ [n]))
  | Some (HFile _) => (w, Err HNotADirectory)
  | None => match w_fs w p with
            | Some HDir => if spend w 1 <? 1 then (w, Err HFault) else (after w (hset (w_fs w) (p ++ [n]) HDir) 1, Ok (p ++ [n]))
            | _ => (w, Err HNotFound)
            end
  end.
Definition create_file (accepts : str -> bool) (p : list str) (n : str) : hprog (list str) := fun w =>
  if negb (valid_name accepts n) then (w, Err HInvalidInput) else
  match w_fs w (p ++ [n]) with
  | Some (HFile _) => (w, Ok (p ++ [n]))
  | Some HDir => (w, Err HIsADirectory)
  | None => match w_fs w p with
            | Some HDir => if spend w 1 <? 1 then (w, Err HFault) else (after w (hset (w_fs w) (p ++ [n]) (HFile [])) 1, Ok (p ++ [n]))
            | _ => (w, Err HNotFound)
            end
  end.
(** Opening a stream, writing to it and closing it: all or nothing. *)
Definition replace_file (p : list str) (b : list byte) : hprog unit := fun w =>
  if spend w (len b) <? len b then (after w (w_fs w) (len b), Err HFault)
  else (after w (hset (w_fs w) p (HFile b)) (len b), Ok tt).

Definition run_host {A} (x : world * res herr A) (evs : list event) (k : A -> world -> world * list event * res uerr unit) : world * list event * res uerr unit :=
  match x with
  | (w, Ok a) => k a w
  | (w, Err e) => (w, evs, Err (UHost e))
  | (w, Panic p) => (w, evs, Panic p)
  | (w, OutOfFuel) => (w, evs, OutOfFuel)
  end.
Definition run_read {A} (r : res rerr A) (w : world) (evs : list event) (k : A -> world * list event * res uerr unit) : world * list event * res uerr unit :=
  match r with
  | Ok a => k a
  | Err e => (w, evs, Err (URead e))
  | Panic p => (w, evs, Panic p)
  | OutOfFuel => (w, evs, OutOfFuel)
  end.

(** ops/browser.rs:127-130, 146-148: the last entry is on top of the stack. *)
Definition push_entries (dir : list str) (es : list dentry) (stack : list (list str * dentry)) : list (list str * dentry) :=
  fold_left (fun st e => (dir, e) :: st) es stack.

(** ops/browser.rs:135-184; [wf] bounds the walk through one directory. *)
Fixpoint web_unpack_loop (fuel wf : nat) (accepts : str -> bool) (file : list byte) (base : N) (stack : list (list str * dentry)) (count : N)
    (w : world) (evs : list event) : world * list event * res uerr unit :=
  match stack with
  | [] => (w, evs, Ok tt)
  | (parent, e) :: stack =>
      match fuel with
      | O => (w, evs, OutOfFuel)
      | S fuel =>
          let n := name_str e in
          let r := d_region (d_dirent (e_node e)) in
          match dirent_table (d_dirent (e_node e)) with
          | Some tab =>
              run_host (create_directory accepts parent n w) evs (fun dir w =>
              run_read (walk_dirent_tree wf (offset_dev (file_dev file) base) tab) w evs (fun es =>
              web_unpack_loop fuel wf accepts file base (push_entries dir es stack) (count + len es) w
                (evs ++ [EFileCount (count + len es); EFileAdded [n] (r_size r)])))
          | None =>
              run_host (create_file accepts parent n w) evs (fun p w =>
              if r_size r =? 0 then web_unpack_loop fuel wf accepts file base stack count w evs
              else run_host (replace_file p (file_data file base r) w) evs (fun _ w =>
                   web_unpack_loop fuel wf accepts file base stack count w (evs ++ [EFileAdded [n] (r_size r)])))
          end
      end
  end.
(** ops/browser.rs:116-187 [unpack_image] of the image file [file] into the directory
    [dest]. *)
Definition web_unpack (fuel : nat) (accepts : str -> bool) (file : list byte) (dest : list str) (w : world) : world * list event * res uerr unit :=
  run_read (offset_wrapper_new (file_dev file)) w [] (fun base =>
  let d := offset_dev (file_dev file) base in
  run_read (read_volume d) w [] (fun v =>
  run_read (walk_dirent_tree fuel d (v_root v)) w [] (fun es =>
  web_unpack_loop fuel fuel accepts file base (push_entries dest es []) (len es) w [EFileCount (len es)]))).
