(** Properties C25-C33: reading images (read.rs, layout.rs, blockdev.rs). *)
From Verif Require Import P_Vm.
From Verif Require Import M_Base M_Util M_Layout M_Read S_Avl S_Codec S_Read P_Base P_Read P_Path P_Find P_Term P_Witness.
From Coq Require Import Init.Byte Permutation Sorted.
Local Open Scope N_scope.

(** C25: any device that returns what was asked for or an error. *)
Theorem c25_volume_detection_is_exact :
  forall d, lawful d -> calm d ->
  (forall v, read_volume d = Ok v -> exists b, d 65536 2048 = Ok b /\ descriptor b (v_root v))
  /\ (forall b r, d 65536 2048 = Ok b -> descriptor b r -> exists v, read_volume d = Ok v /\ v_root v = r)
  /\ (~ volume_at d 0 -> read_volume d = Err InvalidVolume).
Proof. exact c25_lemma. Qed.
Print Assumptions c25_volume_detection_is_exact.

(** Files and cursors are such devices. *)
Theorem c25_files_are_devices :
  forall img, lawful (file_dev img) /\ calm (file_dev img) /\ real (file_dev img).
Proof. exact (fun img => conj (file_lawful img) (conj (file_calm img) (file_real img))). Qed.
Print Assumptions c25_files_are_devices.

Example c25_example :
  (exists v, read_volume (file_dev loop_img) = Ok v /\ v_root v = mkRegion 33 2048)
  /\ read_volume (file_dev (fill 3000 x00)) = Err InvalidVolume
  /\ read_volume (file_dev (fill 70000 x00)) = Err InvalidVolume.
Proof. ssplit; [exact loop_volume|vm_compute; reflexivity|vm_compute; reflexivity]. Qed.

(** C26 *)
Theorem c26_partition_probing :
  forall d, lawful d -> calm d ->
  (exists pre o post, [0; 405798912; 265879552; 34078720] = pre ++ o :: post
     /\ volume_at d o /\ (forall o', In o' pre -> ~ volume_at d o') /\ offset_wrapper_new d = Ok o)
  \/ ((forall o, In o [0; 405798912; 265879552; 34078720] -> ~ volume_at d o)
      /\ offset_wrapper_new d = Err InvalidVolume).
Proof. exact (fun d HL HC => probe_spec d HL HC [0; 405798912; 265879552; 34078720]). Qed.
Print Assumptions c26_partition_probing.

(** Reads through the wrapper are shifted by the offset. *)
Theorem c26_reads_are_shifted : forall d base o n, offset_dev d base o n = d (o + base) n.
Proof. exact (fun d base o n => eq_refl). Qed.
Print Assumptions c26_reads_are_shifted.

Example c26_example :
  offset_wrapper_new c26_dev = Ok 265879552 /\ offset_wrapper_new (file_dev loop_img) = Ok 0
  /\ offset_wrapper_new (file_dev []) = Err InvalidVolume.
Proof. vm_all. Qed.

(** C27 *)
Theorem c27_whole_file_reads :
  forall d x,
  (r_size (d_region x) = 0 -> read_data_all d x = Ok [])
  /\ (forall bs, 0 < r_size (d_region x) -> d (2048 * r_sector (d_region x)) (r_size (d_region x)) = Ok bs ->
        read_data_all d x = Ok bs)
  /\ (forall e, 0 < r_size (d_region x) -> d (2048 * r_sector (d_region x)) (r_size (d_region x)) = Err e ->
        read_data_all d x = Err (IOError e)).
Proof. exact c27_lemma. Qed.
Print Assumptions c27_whole_file_reads.

Example c27_example :
  read_data_all (file_dev c27_img) (mkDdata (mkRegion 1 3) 32 0) = Ok [x01; x02; x03]
  /\ read_data_all (file_dev c27_img) (mkDdata (mkRegion 1 5) 32 0) = Err (IOError UnexpectedEof)
  /\ read_data_all (file_dev c27_img) (mkDdata (mkRegion 9 0) 32 0) = Ok [].
Proof. vm_all. Qed.

(** C28: reads that end inside the file are exact. Missing: a request that
    reaches beyond the end of the file is not cut off there. *)
Theorem c28_ranged_reads_inside_partial :
  forall img x size offset,
  offset + size <= r_size (d_region x) -> offset < r_size (d_region x) ->
  2048 * r_sector (d_region x) + r_size (d_region x) <= len img ->
  read_data_offset (file_dev img) x size offset
  = Ok (slice (slice img (2048 * r_sector (d_region x)) (r_size (d_region x))) offset size).
Proof. exact c28_partial_lemma. Qed.
Print Assumptions c28_ranged_reads_inside_partial.

(** A file of 3 bytes: reading 3 bytes from offset 2 returns its last byte and
    two bytes behind it. *)
Theorem c28_ranged_reads_stay_inside_refuted :
  exists img x size offset bs,
  2048 * r_sector (d_region x) + r_size (d_region x) <= len img
  /\ offset < r_size (d_region x)
  /\ read_data_offset (file_dev img) x size offset = Ok bs
  /\ len bs > r_size (d_region x) - offset
  /\ nth_error bs 1 = Some x04.
Proof. exact c28_refuted_lemma. Qed.
Print Assumptions c28_ranged_reads_stay_inside_refuted.

Example c28_example : read_data_offset (file_dev c27_img) (mkDdata (mkRegion 1 3) 32 0) 1 1 = Ok [x02].
Proof. vm_compute. reflexivity. Qed.

(** C29: paths with a component, the empty path and "/". Missing: "//" and
    longer runs of slashes. *)
Theorem c29_path_syntax_partial :
  forall fuel d r,
  (forall path, (exists c, In c path /\ c <> 47) -> walk_path fuel d r (47 :: path) = walk_path fuel d r path)
  /\ (forall path, path <> [] -> last path 0 <> 47 -> walk_path fuel d r (path ++ [47]) = walk_path fuel d r path)
  /\ walk_path fuel d r [] = Err NoDirent /\ walk_path fuel d r [47] = Err NoDirent.
Proof. exact c29_lemma. Qed.
Print Assumptions c29_path_syntax_partial.

(** The path "//" panics, on every image. *)
Theorem c29_only_slashes_refuted :
  exists path, Forall (fun c => c = 47) path /\ forall fuel d r, walk_path fuel d r path = Panic PUnreachable.
Proof. exact c29_refuted_lemma. Qed.
Print Assumptions c29_only_slashes_refuted.

Example c29_example :
  let img := nest_img in
  walk_path 9 (file_dev img) root33 [47; 47; 97; 47] = walk_path 9 (file_dev img) root33 [97]
  /\ match walk_path 9 (file_dev img) root33 [97] with Ok e => name_str e = [97] | _ => False end.
Proof. cbv zeta. split; vm_compute; reflexivity. Qed.

(** C30: any image, any path, any amount of fuel. *)
Theorem c30_lookups_are_sound :
  forall d r path fuel e, lawful d -> walk_path fuel d r path = Ok e ->
  exists segs, path_of segs path /\ leads d r segs e.
Proof. exact c30_lemma. Qed.
Print Assumptions c30_lookups_are_sound.

(** In the self-containing image the path "a/A/a" leads to entry "a". *)
Example c30_example :
  exists e, walk_path 9 (file_dev nest_img) root33 [97; 47; 65; 47; 97] = Ok e
    /\ e_offset e = 67584 /\ leads (file_dev nest_img) root33 [[97]; [65]; [97]] e.
Proof.
  assert (H : match walk_path 9 (file_dev nest_img) root33 [97; 47; 65; 47; 97] with Ok e => e_offset e = 67584 | _ => False end)
    by (vm_compute; reflexivity).
  destruct (walk_path 9 (file_dev nest_img) root33 [97; 47; 65; 47; 97]) as [e| | |] eqn:E; try contradiction.
  exists e. split; [reflexivity|]. split; [exact H|].
  destruct (c30_lookups_are_sound _ _ _ _ _ (file_lawful nest_img) E) as (segs & HP & HL).
  apply path_of_split in HP. change ([[97]; [65]; [97]] = segs) in HP. rewrite HP. exact HL.
Qed.

(** C31 *)
Theorem c31_lookups_are_complete :
  forall d r segs o path, lawful d -> path_of segs path -> lookup d r segs o ->
  returns (fun fuel => walk_path fuel d r path) o.
Proof. exact c31_lemma. Qed.
Print Assumptions c31_lookups_are_complete.

(** The listings of a well-formed tree are complete as well. *)
Theorem c31_listings_are_complete :
  forall d r l, lawful d -> tree_listing d [] r l ->
  exists out, Permutation out l /\ returns (fun fuel => file_tree fuel d r) (Ok out).
Proof. exact file_tree_lemma. Qed.
Print Assumptions c31_listings_are_complete.

(** A well-formed directory of two entries that this library would not write:
    unbalanced, with a gap ([c31_img] in P_Witness.v). *)
Example c31_example :
  directory (file_dev c31_img) root33 (Node (Node Leaf (c31_entry 67604) Leaf) (c31_entry 67584) Leaf)
  /\ lookup (file_dev c31_img) root33 [[97]] (Ok (c31_entry 67604))
  /\ lookup (file_dev c31_img) root33 [[97; 97]; [98]] (Err DoesNotExist)
  /\ lookup (file_dev c31_img) root33 [[66; 66]; [98]] (Err IsNotDirectory).
Proof.
  destruct c31_entries as (E1 & E2). apply read_dirent_iff in E1 as (S1 & O1); [|apply file_lawful].
  apply read_dirent_iff in E2 as (S2 & O2); [|apply file_lawful].
  assert (HD : directory (file_dev c31_img) root33 (Node (Node Leaf (c31_entry 67604) Leaf) (c31_entry 67584) Leaf)).
  { split.
    - split; [vm_compute; reflexivity|]. split; [vm_compute; reflexivity|]. split; [exact S1|]. split; [|vm_compute; reflexivity].
      split; [split; vm_compute; reflexivity|].
      split; [vm_compute; reflexivity|]. split; [vm_compute; reflexivity|]. split; [exact S2|]. vm_all.
    - repeat constructor; vm_compute; reflexivity. }
  split; [exact HD|].
  split; [|split].
  - eapply lk_found; [exact HD|left; reflexivity|vm_compute; reflexivity].
  - eapply lk_absent; [exact HD|]. intros e [<-|[<-|[]]]; vm_compute; discriminate.
  - eapply lk_file; [exact HD|right; left; reflexivity|vm_compute; reflexivity|discriminate|vm_compute; reflexivity].
Qed.

(** C32: images whose child pointers point forward, as in every table that this
    library writes. Missing: arbitrary images. *)
Theorem c32_forward_images_terminate_partial :
  forall d r path, lawful d -> real d -> (forall r', forward d r') ->
  terminates (fun fuel => walk_path fuel d r path) /\ terminates (fun fuel => walk_dirent_tree fuel d r).
Proof. exact (fun d r path HL HR HF => conj (forward_walk_path d r path HL HR HF) (forward_walk_tree d r HL HR (HF r))). Qed.
Print Assumptions c32_forward_images_terminate_partial.

(** An image that opens but on which a lookup and a listing never return. *)
Theorem c32_traversal_terminates_refuted :
  exists img v path, read_volume (file_dev img) = Ok v
  /\ diverges (fun fuel => walk_path fuel (file_dev img) (v_root v) path)
  /\ diverges (fun fuel => walk_dirent_tree fuel (file_dev img) (v_root v)).
Proof. exact c32_refuted_lemma. Qed.
Print Assumptions c32_traversal_terminates_refuted.

(** A directory contained in itself makes the recursive listing endless. *)
Theorem c32_listing_terminates_refuted :
  exists img v, read_volume (file_dev img) = Ok v /\ diverges (fun fuel => file_tree fuel (file_dev img) (v_root v)).
Proof. exact c32_listing_refuted_lemma. Qed.
Print Assumptions c32_listing_terminates_refuted.

(** On an empty file, lookups terminate (with an I/O error). *)
Example c32_example :
  (forall r, forward (file_dev []) r)
  /\ walk_path 2 (file_dev []) root33 [65] = Err (IOError UnexpectedEof).
Proof.
  split; [|vm_compute; reflexivity]. intros r e ((hdr & name & H & _) & _). exfalso. unfold file_dev in H.
  change (len (@nil byte)) with 0 in H. destruct (N.leb_spec (e_offset e + 14) 0); [lia|]. discriminate H.
Qed.

(** C33: the scan returns, with at most 128 entries per sector. Missing: it may
    panic. *)
Theorem c33_scan_terminates_partial :
  forall d r, real d ->
  exists o, o <> OutOfFuel /\ returns (fun fuel => scan_all fuel d r) o
    /\ (forall es, o = Ok es -> len es <= 128 * ((r_size r + 2047) / 2048)).
Proof. exact scan_total. Qed.
Print Assumptions c33_scan_terminates_partial.

(** An entry whose name crosses the end of its sector. *)
Theorem c33_scan_never_panics_refuted :
  exists img v, read_volume (file_dev img) = Ok v
  /\ returns (fun fuel => scan_all fuel (file_dev img) (v_root v)) (Panic PAssert).
Proof. exact c33_refuted_lemma. Qed.
Print Assumptions c33_scan_never_panics_refuted.

Example c33_example :
  match scan_all 9 (file_dev loop_img) root33 with Ok es => map name_str es = [[66]; [67]] | _ => False end.
Proof. vm_compute. reflexivity. Qed.
