(** Properties C122 to C126: sources that fail, truncated images, images with data
    around them (read.rs, blockdev.rs, checksum.rs, cmd_read.rs, cmd_md5.rs,
    cmd_info.rs, write/fs/xdvdfs.rs, cmd_pack.rs). *)
From Verif Require Import M_Base M_Util M_Layout M_Read M_Img M_Dev M_Xfs M_Check M_Cli M_Unpack M_Exiso M_Stdfs M_Host.
From Verif Require Import S_Avl S_Codec S_Table S_Read S_Img S_Xfs S_Check S_Cli S_Unpack S_Flaky.
From Verif Require Import P_Base P_Witness P_More P_Src P_Repack P_Host P_Unpack P_Exiso P_Stdfs P_Extra P_Flaky.
From Verif Require Import P_Vm.
From Coq Require Import Init.Byte Strings.String.
From Coq Require Import List.
Local Close Scope string_scope.
Local Open Scope N_scope.

(** C122: if some reads of a device fail, every operation of the library gives what
    it gives on a device without failures, or an I/O error; reading the volume
    descriptor gives the same volume or the error for an invalid volume. *)
Theorem c122_volume : forall d' d, fails_more d' d -> read_volume d' = read_volume d \/ read_volume d' = Err InvalidVolume.
Proof. exact read_volume_weak. Qed.
Print Assumptions c122_volume.
Theorem c122_lookup :
  forall d' d fuel r path, fails_more d' d -> same_or_io (walk_path fuel d' r path) (walk_path fuel d r path).
Proof. exact (fun d' d fuel r path H => walk_path_soi d' d H fuel r path). Qed.
Print Assumptions c122_lookup.
Theorem c122_listing :
  forall d' d fuel r, fails_more d' d -> same_or_io (walk_dirent_tree fuel d' r) (walk_dirent_tree fuel d r).
Proof. exact (fun d' d fuel r H => walk_dirent_tree_soi d' d H fuel r). Qed.
Print Assumptions c122_listing.
Theorem c122_scan :
  forall d' d fuel r, fails_more d' d -> same_or_io (scan_all fuel d' r) (scan_all fuel d r).
Proof. exact (fun d' d fuel r H => scan_all_soi d' d H fuel r). Qed.
Print Assumptions c122_scan.
Theorem c122_tree :
  forall d' d fuel r, fails_more d' d -> same_or_io (file_tree fuel d' r) (file_tree fuel d r).
Proof. exact (fun d' d fuel r H => file_tree_soi d' d H fuel r). Qed.
Print Assumptions c122_tree.
Theorem c122_data :
  forall d' d x, fails_more d' d -> same_or_io (read_data_all d' x) (read_data_all d x).
Proof. exact (fun d' d x H => read_data_all_soi d' d H x). Qed.
Print Assumptions c122_data.
Theorem c122_data_at :
  forall d' d x size off, fails_more d' d -> same_or_io (read_data_offset d' x size off) (read_data_offset d x size off).
Proof. exact (fun d' d x size off H => read_data_offset_soi d' d H x size off). Qed.
Print Assumptions c122_data_at.
Theorem c122_checksum :
  forall d' d Hash fuel v, fails_more d' d -> same_or_io (checksum Hash fuel d' v) (checksum Hash fuel d v).
Proof. exact (fun d' d Hash fuel v H => checksum_soi d' d H Hash fuel v). Qed.
Print Assumptions c122_checksum.
(** A truncated file is such a device. *)
Theorem c122_truncated : forall k file base, fails_more (offset_dev (file_dev (firstn k file)) base) (offset_dev (file_dev file) base).
Proof. exact (fun k file base => offset_more _ _ base (file_cut k file)). Qed.
Print Assumptions c122_truncated.

(** a ("hi"), S/c ("x"). *)
Definition c122_tree_of : ftree := FDir [(text "a", FFile [x68; x69]); (text "S", FDir [(text "c", FFile [x78])])].
Definition c122_img : list byte := fst (fst (create_xdvdfs_image 10 Debug file_wdev (std_fs c122_tree_of) ([], []))).
Definition c122_root (img : list byte) : region := match read_volume (file_dev img) with Ok v => v_root v | _ => mkRegion 0 0 end.
Definition c122_data_of (img : list byte) (path : str) : res rerr (list byte) :=
  let* e := walk_path 10 (file_dev img) (c122_root img) path in read_data_all (file_dev img) (d_dirent (e_node e)).
(** Without the last of its sectors that is used, and without the last two. *)
Definition c122_cut (n : N) : list byte := firstn (N.to_nat (2048 * n)) c122_img.
Example c122_example :
  map (fun n => c122_data_of (c122_cut n) (text "/a")) [35; 34; 32]
    = [Ok [x68; x69]; Err (IOError UnexpectedEof); Err DirectoryEmpty]
  /\ map (fun n => c122_data_of (c122_cut n) (text "/S/c")) [37; 36]
    = [Ok [x78]; Err (IOError UnexpectedEof)].
Proof. vm_all. Qed.

(** C123, partial: a command that reads an image prints, for a truncated image, what
    it prints for the whole image, or the first lines of that and an I/O error, or
    that there is no volume; provided that the partition is at the start of the
    file, or is still found at the same place. Missing: other files. *)
Theorem c123_commands_partial :
  forall f file k base, read_command f -> offset_wrapper_new (file_dev file) = Ok base ->
  base = 0 \/ offset_wrapper_new (file_dev (firstn k file)) = Ok base ->
  f (firstn k file) = ([], Err InvalidVolume) \/ same_or_cut (f (firstn k file)) (f file).
Proof. exact c123_lemma. Qed.
Print Assumptions c123_commands_partial.
(** The first digest is printed, the second one cannot be computed. *)
Example c123_example :
  offset_wrapper_new (file_dev c122_img) = Ok 0
  /\ cmd_md5 (firstn 1) 10 (c122_cut 36) None = ([text "68  /a"; text "00  /S"], Err (IOError UnexpectedEof))
  /\ cmd_md5 (firstn 1) 10 (c122_cut 32) None = ([], Err InvalidVolume).
Proof. vm_all. Qed.

(** Finding: a truncated file can show another partition, without an error: a read
    error at one place makes the search go on at the next place. *)
Definition c123_img (name : str) : list byte :=
  fst (fst (create_xdvdfs_image 10 Debug file_wdev (std_fs (FDir [(name, FFile [])])) ([], []))).
Theorem c123_commands_refuted :
  exists f file k, read_command f /\ f file = ([text "b"], Ok tt) /\ f (firstn k file) = ([text "a"], Ok tt).
Proof.
  destruct (two_listings (fun file => cmd_ls 10 file [SLASH] false) (c123_img (text "a")) (c123_img (text "b")) [text "a"] [text "b"]) as (file & k & F1 & F2);
    [apply rc_ls|vm_compute; reflexivity..|].
  exists (fun file => cmd_ls 10 file [SLASH] false), file, k. split; [apply rc_ls|]. split; [exact F1|exact F2].
Qed.
Print Assumptions c123_commands_refuted.

(** C124: data after an image does not matter to the commands that read it, when the
    partition is at the start of the file or all the places of a partition are
    inside the file already. *)
Theorem c124_trailing_data :
  forall f file more base, read_command f -> offset_wrapper_new (file_dev file) = Ok base -> base = 0 \/ 405866496 <= len file ->
  (forall e, snd (f file) <> Err (IOError e)) -> f (file ++ more) = f file.
Proof. exact c124_lemma. Qed.
Print Assumptions c124_trailing_data.
Example c124_example :
  offset_wrapper_new (file_dev c122_img) = Ok 0 /\ cmd_ls 10 c122_img (text "/S") false = ([text "c"], Ok tt)
  /\ cmd_ls 10 (c122_img ++ [x61; x62]) (text "/S") false = ([text "c"], Ok tt).
Proof. vm_all. Qed.
(** An I/O error may go away. *)
Example c124_error :
  snd (cmd_md5 (firstn 1) 10 (c122_cut 36) None) = Err (IOError UnexpectedEof)
  /\ snd (cmd_md5 (firstn 1) 10 (c122_cut 36 ++ fill 2048 x79) None) = Ok tt.
Proof. vm_all. Qed.

(** C125, partial: packing from a source that fails gives what it gives from one that
    does not, or an error. For packing from images, this is so with the copier of
    the library and of the browser. Missing: the copier of the command line. *)
Theorem c125_sources_partial :
  forall D (fs' fs : fsys D) fuel m W s s1, fs_fails_more fs' fs ->
  create_xdvdfs_image fuel m W fs' s = (s1, Ok tt) -> create_xdvdfs_image fuel m W fs s = (s1, Ok tt).
Proof. exact (fun D fs' fs fuel m W s s1 F => create_pleq fs' fs F fuel m W s s1 tt). Qed.
Print Assumptions c125_sources_partial.
Theorem c125_images_partial :
  forall D (W : wdev D) d' d fuel m s s1, fails_more d' d ->
  repack fuel m W d' (default_copier d' W) s = (s1, Ok tt) -> repack fuel m W d (default_copier d W) s = (s1, Ok tt).
Proof. exact (fun D W d' d fuel m s s1 F => repack_leq d' d F W fuel m s s1 tt). Qed.
Print Assumptions c125_images_partial.
Definition c125_repack (img : list byte) : res werr unit :=
  snd (repack 100 Release file_wdev (file_dev img) (default_copier (file_dev img) file_wdev) ([], [])).
Example c125_example :
  c125_repack (c122_cut 37) = Ok tt
  /\ c125_repack (c122_cut 36) = Err (FilesystemCopierError UnexpectedEof)
  /\ c125_repack (c122_cut 35) = Err (FilesystemHierarchyError UnexpectedEof).
Proof. vm_all. Qed.

(** Finding: on the command line, packing from a truncated image succeeds, and the
    missing data is replaced by zeros. *)
Definition c125_world : world := planted (text "d") (FDir [(text "j", FFile (c122_cut 36))]).
Theorem c125_images_refuted :
  exists t img k cwd pk src i w, source t /\ packs Debug t img /\ at_path t [text "S"; text "c"] (FFile [x78])
    /\ w_fs w [text "d"; text "j"] = Some (HFile (firstn k img)) /\ src = text "d/j" /\ i = text "o"
    /\ snd (cmd_pack cwd pk src (Some i) w) = Ok tt /\ pk = std_packer (fun _ => []) 100 Debug
    /\ match w_fs (fst (cmd_pack cwd pk src (Some i) w)) [text "o"] with
       | Some (HFile b) => c122_data_of b (text "/S/c") = Ok [x00]
       | _ => False
       end.
Proof.
  exists c122_tree_of, c122_img, (N.to_nat (2048 * 36)), [], (std_packer (fun _ => []) 100 Debug), (text "d/j"), (text "o"), c125_world.
  assert (S : source c122_tree_of) by (apply source_b_ok; vm_compute; reflexivity).
  split; [exact S|]. split; [apply (std_packs Debug c122_tree_of 10 []); [exact S|vm_compute; reflexivity]|].
  split; [eapply at_child; [right; left; reflexivity|eapply at_child; [left; reflexivity|apply at_here]]|]. split; [reflexivity|]. split; [reflexivity|]. split; [reflexivity|].
  split; [vm_compute; reflexivity|]. split; [reflexivity|]. vm_compute. reflexivity.
Qed.
Print Assumptions c125_images_refuted.

(** C126: at whichever of its places the partition is found, and whatever is around
    it, the commands that read images print what they print for the partition. *)
Theorem c126_position :
  forall f before img after, read_command f -> offset_wrapper_new (file_dev img) = Ok 0 ->
  offset_wrapper_new (file_dev (before ++ img ++ after)) = Ok (len before) -> (forall e, snd (f img) <> Err (IOError e)) ->
  f (before ++ img ++ after) = f img.
Proof. exact c126_lemma. Qed.
Print Assumptions c126_position.
Example c126_example :
  exists file, offset_wrapper_new (file_dev file) = Ok 405798912 /\ cmd_ls 10 file [SLASH] false = ([text "b"], Ok tt).
Proof.
  destruct (second_partition (fun file => cmd_ls 10 file [SLASH] false) (c123_img (text "a")) (c123_img (text "b")) [text "b"]) as (file & F1 & F2);
    [apply rc_ls|vm_compute; reflexivity..|].
  exists file. split; [exact F1|exact F2].
Qed.
