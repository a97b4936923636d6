(** Properties C34-C36, C55, C57, C59: devices, copiers and buffered output
    (blockdev.rs, write/fs/stdfs.rs, write/fs/xdvdfs.rs, cmd_pack.rs). *)
From Verif Require Import M_Base M_Util M_Layout M_Avl M_Sector M_Dirtab M_Read M_Img M_Dev.
From Verif Require Import S_Avl S_Codec S_Table S_Read S_Img S_Dev.
From Verif Require Import P_Vm.
From Verif Require Import P_Base P_Packed P_Run P_More P_Dev P_Buf P_Flush.
From Coq Require Import Init.Byte.
Local Open Scope N_scope.

(** C34, into a file *)
Theorem c34_copy_into_file_is_exact :
  forall src b off_in off_out dest, supplies src off_in b ->
  exists dest', rw_copy src file_wdev off_in off_out (len b) dest = (dest', Ok (len b)) /\ stored_at dest dest' off_out b
    /\ len dest' = if len b =? 0 then len dest else N.max (len dest) (off_out + len b).
Proof. exact c34_file_lemma. Qed.
Print Assumptions c34_copy_into_file_is_exact.

(** C34, into a memory buffer with enough room *)
Theorem c34_copy_into_memory_is_exact :
  forall src b off_in off_out dest, supplies src off_in b -> off_out + len b <= len dest ->
  exists dest', rw_copy src mem_wdev off_in off_out (len b) dest = (dest', Ok (len b)) /\ stored_at dest dest' off_out b /\ len dest' = len dest.
Proof. exact c34_mem_lemma. Qed.
Print Assumptions c34_copy_into_memory_is_exact.

(** C34, when reading fails: only the requested range changes, nothing short is
    reported as success, and the loop ends. *)
Theorem c34_failing_copy_stays_in_range :
  forall src off_in off_out size dest dest' r, lawful src ->
  rw_copy src file_wdev off_in off_out size dest = (dest', r) ->
  untouched dest dest' off_out size /\ (forall n, r = Ok n -> n = size) /\ (calm src -> (exists n, r = Ok n) \/ (exists e, r = Err (BlockDevReadErr e))).
Proof. exact c34_any_lemma. Qed.
Print Assumptions c34_failing_copy_stays_in_range.

Example c34_supplied : supplies (file_dev [x61; x62; x63; x64]) 1 [x62; x63; x64].
Proof.
  intros i n H Hn. unfold file_dev, slice, len in *. cbn in H.
  assert (Hi : i = 0 \/ i = 1 \/ i = 2) by lia. assert (Hn' : n = 1 \/ n = 2 \/ n = 3) by lia.
  destruct Hi as [->|[->| ->]], Hn' as [->|[->| ->]]; try lia; reflexivity.
Qed.
Example c34_example :
  rw_copy (file_dev [x61; x62; x63; x64]) file_wdev 1 2 3 [x41] = ([x41; x00; x62; x63; x64], Ok 3)
  /\ rw_copy (file_dev [x61; x62; x63; x64]) mem_wdev 1 2 3 [x41; x41; x41; x41; x41] = ([x41; x41; x62; x63; x64], Ok 3)
  /\ rw_copy (file_dev [x61; x62; x63; x64]) file_wdev 2 2 3 [x41] = ([x41], Err (BlockDevReadErr UnexpectedEof)).
Proof. vm_all. Qed.

(** C35, writing *)
Theorem c35_memory_write_is_bounded :
  forall buf off b,
  (off < len buf /\ off + len b <= len buf /\ exists buf', mem_write buf off b = (buf', Ok tt) /\ len buf' = len buf /\ stored_at buf buf' off b)
  \/ (~ (off < len buf /\ off + len b <= len buf) /\ mem_write buf off b = (buf, Err OutOfBounds)).
Proof. exact c35_write_lemma. Qed.
Print Assumptions c35_memory_write_is_bounded.

(** C35, reading: a range that starts inside the buffer and ends outside panics. *)
Theorem c35_memory_read_partial :
  forall buf off n,
  (off < len buf /\ off + n <= len buf /\ exists b, mem_dev buf off n = Ok b /\ len b = n /\ forall i, i < n -> byte_at b i = byte_at buf (off + i))
  \/ (len buf <= off /\ mem_dev buf off n = Err OutOfBounds)
  \/ (off < len buf < off + n /\ mem_dev buf off n = Panic PIndex).
Proof. exact c35_read_lemma. Qed.
Print Assumptions c35_memory_read_partial.

Theorem c35_memory_read_never_panics_refuted :
  exists buf off n p, mem_dev buf off n = Panic p.
Proof. exists [x61; x62; x63], 2, 2, PIndex. vm_compute. reflexivity. Qed.
Print Assumptions c35_memory_read_never_panics_refuted.

Example c35_example :
  mem_write [x61; x62; x63] 1 [x41; x42] = ([x61; x41; x42], Ok tt) /\ mem_write [x61; x62; x63] 2 [x41; x42] = ([x61; x62; x63], Err OutOfBounds)
  /\ mem_dev [x61; x62; x63] 1 2 = Ok [x62; x63] /\ mem_dev [x61; x62; x63] 3 1 = Err OutOfBounds.
Proof. vm_all. Qed.

(** C36: exact at the start of the buffer (as used for compression) ... *)
Theorem c36_copy_to_start_of_memory_partial :
  forall src dest input size, size <= len dest ->
  exists dest', slice_copy src dest input 0 size = (dest', Ok size) /\ len dest' = len dest
   /\ stored_at dest dest' 0 (slice src input size ++ fill (size - len (slice src input size)) x00).
Proof. exact c36_zero_lemma. Qed.
Print Assumptions c36_copy_to_start_of_memory_partial.

(** ... and a panic anywhere else. *)
Theorem c36_copy_elsewhere_always_panics :
  forall src dest input output size, 0 < output -> output + size <= len dest -> input + size <= len src ->
  snd (slice_copy src dest input output size) = Panic PIndex.
Proof. exact c36_panics_lemma. Qed.
Print Assumptions c36_copy_elsewhere_always_panics.

Theorem c36_copy_into_memory_refuted :
  exists src dest input output size, output + size <= len dest /\ input + size <= len src
   /\ ~ exists dest', slice_copy src dest input output size = (dest', Ok size) /\ stored_at dest dest' output (slice src input size).
Proof.
  exists [x61], [x00; x00], 0, 1, 1. split; [vm_compute; discriminate|]. split; [vm_compute; discriminate|].
  intros (d & H & _). vm_compute in H. discriminate H.
Qed.
Print Assumptions c36_copy_into_memory_refuted.

Example c36_example : slice_copy [x61; x62; x63] [x41; x41; x41; x41] 2 0 3 = ([x63; x00; x00; x41], Ok 3).
Proof. vm_compute. reflexivity. Qed.

(** C55 *)
Theorem c55_buffered_output_equals_unbuffered :
  forall m t cap fs fsf fuel evs img evs' r, source t -> presents fs t -> buf_copies cap fs t -> presents fsf t -> copies fsf t ->
  create_xdvdfs_image fuel m file_wdev fsf ([], evs) = ((img, evs'), r) -> r <> OutOfFuel ->
  exists w, returns (fun fuel => create_xdvdfs_image fuel m (bufw_wdev raw_file cap) fs (bw_new [], evs)) ((w, evs'), r)
    /\ bw_drop raw_file w = img.
Proof. exact c55_lemma. Qed.
Print Assumptions c55_buffered_output_equals_unbuffered.

(** Such file systems exist, for every tree, capacity and way of copying. *)
Theorem c55_buffered_host :
  forall cap split t, proper t -> (forall b, concat (map piece_bytes (split b)) = b) ->
  presents (std_buf_fs raw_file cap split t) t /\ buf_copies cap (std_buf_fs raw_file cap split t) t.
Proof. exact std_buf_ok. Qed.
Print Assumptions c55_buffered_host.

Definition c55_tree : ftree := FDir [([97], FFile [x41; x42; x43]); ([100], FDir [([66], FFile [])])].
Definition c55_split (b : list byte) : list piece := [Through (firstn 2 b); Direct (skipn 2 b)].
Definition same_bytes (a b : list byte) : bool := (len a =? len b) && forallb (fun xy => Byte.eqb (fst xy) (snd xy)) (combine a b).
Notation c55_plain := (create_xdvdfs_image 10 Debug file_wdev (std_fs c55_tree) ([], [])).
Notation c55_buffered cap := (pack_buffered raw_file cap c55_split 10 Debug c55_tree []).
Example c55_example :
  len (fst (c55_buffered 1048576)) = 131072 /\ snd (c55_buffered 1048576) = Ok tt
  /\ same_bytes (fst (fst c55_plain)) (fst (c55_buffered 1048576)) = true /\ same_bytes (fst (fst c55_plain)) (fst (c55_buffered 5)) = true.
Proof. vm_all. Qed.

(** C57. The image is written, but success is reported only for lengths that are
    multiples of 64 KiB. *)
Theorem c57_packing_into_memory_partial :
  forall m t img fs buf evs, source t -> packs m t img -> presents fs t -> mem_copies fs t -> len img <= len buf ->
  exists buf' evs',
    returns (fun fuel => create_xdvdfs_image fuel m mem_wdev fs (buf, evs))
      ((buf', evs'), if len buf mod 65536 =? 0 then Ok tt else Err (BlockDeviceError OutOfBounds))
    /\ len buf' = len buf /\ readable (file_dev buf') t
    /\ (buf = fill (len buf) x00 -> buf' = img ++ fill (len buf - len img) x00).
Proof. exact c57_lemma. Qed.
Print Assumptions c57_packing_into_memory_partial.

Definition c57_tree : ftree := FDir [([97], FFile [x41; x42; x43])].
Example c57_source : source c57_tree.
Proof.
  split; [reflexivity|]. split; [|split; [|reflexivity]].
  - unfold proper. repeat (first [apply every_dir_file|apply every_dir_node]; repeat constructor; cbn [map fst snd]);
      intros H; cbn in H; repeat destruct H as [H|H]; try discriminate; auto.
  - repeat (first [apply every_dir_file|apply every_dir_node]; repeat constructor; cbn [snd]); try discriminate.
Qed.

(** Such file systems exist, for every tree. *)
Theorem c57_memory_host :
  forall t, proper t -> presents (good_mem_fs t) t /\ mem_copies (good_mem_fs t) t.
Proof. exact good_mem_ok. Qed.
Print Assumptions c57_memory_host.

(** A buffer larger than the image, but not a multiple of 64 KiB. *)
Theorem c57_any_large_enough_buffer_refuted :
  exists t buf e, source t /\ len buf = 131073
   /\ snd (create_xdvdfs_image 10 Debug file_wdev (std_fs t) ([], [])) = Ok tt
   /\ len (fst (fst (create_xdvdfs_image 10 Debug file_wdev (std_fs t) ([], [])))) = 131072
   /\ snd (create_xdvdfs_image 10 Debug mem_wdev (good_mem_fs t) (buf, [])) = Err e.
Proof.
  exists c57_tree, (fill 131073 x00), (BlockDeviceError OutOfBounds). split; [exact c57_source|]. vm_all.
Qed.
Print Assumptions c57_any_large_enough_buffer_refuted.

(** Packing a host directory into memory panics, because of C36. *)
Theorem c57_packing_host_files_refuted :
  exists t buf p, source t /\ len buf = 131072 /\ snd (create_xdvdfs_image 10 Debug mem_wdev (std_mem_fs t) (buf, [])) = Panic p.
Proof. exists c57_tree, (fill 131072 x00), PIndex. split; [exact c57_source|]. vm_all. Qed.
Print Assumptions c57_packing_host_files_refuted.

Example c57_example :
  snd (create_xdvdfs_image 10 Debug mem_wdev (good_mem_fs c57_tree) (fill 131072 x00, [])) = Ok tt
  /\ same_bytes (fst (fst (create_xdvdfs_image 10 Debug mem_wdev (good_mem_fs c57_tree) (fill 131072 x00, []))))
       (fst (fst (create_xdvdfs_image 10 Debug file_wdev (std_fs c57_tree) ([], [])))) = true.
Proof. vm_all. Qed.

(** C59, partial: success means a complete image if the flush at the end, whose
    result nobody sees, succeeds as well. This holds for every file whose successful
    writes are carried out. Missing: failures of this flush. *)
Theorem c59_flushed_partial :
  forall S (R : raw S) bytes cap split t m fuel s w evs, writes_or_fails R bytes -> source t -> (forall b, concat (map piece_bytes (split b)) = b) -> bytes s = [] ->
  create_xdvdfs_image fuel m (bufw_wdev R cap) (std_buf_fs R cap split t) (bw_new s, []) = ((w, evs), Ok tt) ->
  snd (bw_flush R w) = Ok tt -> packs m t (bytes (bw_drop R w)).
Proof. intros S R bytes cap split t m fuel s w evs HR. exact (c59_lemma R bytes cap split t HR m fuel s w evs). Qed.
Print Assumptions c59_flushed_partial.
(** A file that accepts a number of bytes is such a file; with room for 5000 bytes
    packing fails, with room for 200000 both succeed. *)
Theorem c59_limited_files : forall e, writes_or_fails (crash_raw e) fst.
Proof. exact crash_or_fails. Qed.
Print Assumptions c59_limited_files.
Example c59_example :
  let run k := create_xdvdfs_image 10 Debug (bufw_wdev (crash_raw (IoOther 28)) 1048576) (std_buf_fs (crash_raw (IoOther 28)) 1048576 (fun b => [Through b]) c55_tree) (bw_new ([], k), []) in
  snd (run 5000) = Err (BlockDeviceError (IoOther 28))
  /\ snd (run 200000) = Ok tt /\ snd (bw_flush (crash_raw (IoOther 28)) (fst (fst (run 200000)))) = Ok tt.
Proof. cbv zeta. vm_all. Qed.

(** C59: the pack command reports success, and the volume descriptor was lost.
    The output accepts the table and the file and then fails; the writer is
    dropped without an explicit flush. *)
Theorem c59_success_means_a_complete_image_refuted :
  exists t k, source t /\
    match pack_buffered (crash_raw (IoOther 28)) 1048576 (fun b => [Through b]) 10 Debug t ([], k) with
    | (s, r) => r = Ok tt /\ read_volume (file_dev (fst s)) = Err InvalidVolume
    end.
Proof.
  exists (FDir [([97], FFile (fill 61440 x41))]), 63488. split.
  - split; [reflexivity|]. split; [|split; [|reflexivity]].
    + unfold proper. repeat (first [apply every_dir_file|apply every_dir_node]; repeat constructor; cbn [map fst snd]);
        intros H; cbn in H; repeat destruct H as [H|H]; try discriminate; auto.
    + repeat (first [apply every_dir_file|apply every_dir_node]; repeat constructor; cbn [snd]); try discriminate.
  - assert (H : (let (s, r) := pack_buffered (crash_raw (IoOther 28)) 1048576 (fun b => [Through b]) 10 Debug (FDir [([97], FFile (fill 61440 x41))]) ([], 63488)
      in (r, read_volume (file_dev (fst s)))) = (Ok tt, Err InvalidVolume)) by (vm_compute; reflexivity).
    destruct (pack_buffered _ _ _ _ _ _ _) as [s r]. injection H as -> ->. split; reflexivity.
Qed.
Print Assumptions c59_success_means_a_complete_image_refuted.
