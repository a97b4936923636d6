(** Properties C14-C20: packing a tree into an image and reading it back
    (write/img.rs, read.rs). [packs m t img]: a successful run of
    create_xdvdfs_image onto an empty file, from any file system that lists and
    copies the tree [t], left [img]. [source t]: a directory with one entry per
    name whose sizes do not overflow the 32-bit counters. *)
From Verif Require Import M_Base M_Util M_Layout M_Avl M_Sector M_Dirtab M_Read M_Img.
From Verif Require Import S_Avl S_Codec S_Table S_Read S_Img.
From Verif Require Import P_Vm.
From Verif Require Import P_Base P_Packed P_Run P_More.
From Coq Require Import Init.Byte Permutation Strings.String.
Local Open Scope N_scope.
Local Close Scope string_scope.

(** C14 *)
Theorem c14_packed_files_read_back :
  forall m t img, source t -> packs m t img ->
  exists v, read_volume (file_dev img) = Ok v /\
  forall segs path n t', names t segs n t' -> path_of segs path ->
  exists e, returns (fun fuel => walk_path fuel (file_dev img) (v_root v) path) (Ok e)
    /\ name_str e = n /\ is_dir e = is_fdir t'
    /\ forall b, t' = FFile b -> r_size (region_of e) = len b /\ read_data_all (file_dev img) (d_dirent (e_node e)) = Ok b.
Proof. exact c14_lemma. Qed.
Print Assumptions c14_packed_files_read_back.

(** The host file system is one of the sources. *)
Theorem c14_host_source :
  forall t, proper t -> presents (std_fs t) t /\ copies (std_fs t) t.
Proof. exact (fun t H => conj (std_presents t H) (std_copies t H)). Qed.
Print Assumptions c14_host_source.

(** b.txt, Sub/A (empty), Sub/long (3000 bytes), z (empty directory) *)
Definition c14_tree : ftree :=
  FDir [([98; 46; 116], FFile [x68; x69]);
        ([83; 117; 98], FDir [([65], FFile []); ([108], FFile (fill 3000 x2a))]);
        ([122], FDir [])].
Definition c14_run := create_xdvdfs_image 10 Debug file_wdev (std_fs c14_tree) ([], []).
Definition c14_img : list byte := fst (fst c14_run).

Example c14_source : source c14_tree.
Proof.
  split; [reflexivity|]. split; [|split; [|reflexivity]].
  - unfold proper. repeat (first [apply every_dir_file|apply every_dir_node]; repeat constructor; cbn [map fst snd]);
      intros H; cbn in H; repeat destruct H as [H|H]; try discriminate; auto.
  - repeat (first [apply every_dir_file|apply every_dir_node]; repeat constructor; cbn [snd]); try discriminate.
Qed.
Example c14_packs : packs Debug c14_tree c14_img.
Proof. apply (std_packs Debug c14_tree 10 []); [exact c14_source|vm_compute; reflexivity]. Qed.
Definition c14_at {A} (k : dentry -> res rerr A) (path : str) : res rerr A :=
  let* v := read_volume (file_dev c14_img) in
  let* e := walk_path 20 (file_dev c14_img) (v_root v) path in k e.
(** "/sub/a", "/SUB/L/", "b.T" *)
Example c14_example :
  len c14_img = 131072
  /\ c14_at (fun e => Ok (name_str e)) [47; 115; 117; 98; 47; 97] = Ok [65]
  /\ c14_at (fun e => Ok (r_size (region_of e))) [47; 83; 85; 66; 47; 76; 47] = Ok 3000
  /\ c14_at (fun e => read_data_all (file_dev c14_img) (d_dirent (e_node e))) [98; 46; 84] = Ok [x68; x69].
Proof. vm_all. Qed.

(** C15 *)
Theorem c15_lookup_ignores_case :
  forall m t img v segs segs' path path', source t -> packs m t img -> read_volume (file_dev img) = Ok v ->
  path_of segs path -> path_of segs' path' -> Forall2 same_name segs segs' ->
  exists o, returns (fun fuel => walk_path fuel (file_dev img) (v_root v) path) o
    /\ returns (fun fuel => walk_path fuel (file_dev img) (v_root v) path') o.
Proof. exact c15_lemma. Qed.
Print Assumptions c15_lookup_ignores_case.

Example c15_example :
  Forall2 same_name [[83; 117; 98]; [97]] [[115; 85; 66]; [65]]
  /\ path_of [[83; 117; 98]; [97]] [83; 117; 98; 47; 97]
  /\ c14_at (fun e => Ok (name_str e, e_offset e)) [83; 117; 98; 47; 97] = Ok ([65], 69632)
  /\ c14_at (fun e => Ok (name_str e, e_offset e)) [115; 85; 66; 47; 65] = Ok ([65], 69632).
Proof.
  split; [repeat constructor|]. split.
  - exists 0%nat, []. ssplit; try discriminate; auto; [repeat constructor; cbv; intuition discriminate|]. left. split; [reflexivity|discriminate].
  - vm_all.
Qed.

(** C16 *)
Theorem c16_absent_paths_are_reported :
  forall m t img v segs path x, source t -> packs m t img -> read_volume (file_dev img) = Ok v ->
  path_of segs path -> missing t segs x -> returns (fun fuel => walk_path fuel (file_dev img) (v_root v) path) (Err x).
Proof. exact c16_lemma. Qed.
Print Assumptions c16_absent_paths_are_reported.

(** Every path is either present or missing. *)
Theorem c16_present_or_missing :
  forall t segs, is_fdir t = true -> segs <> [] -> (exists n t', names t segs n t') \/ (exists x, missing t segs x).
Proof. exact c16_total. Qed.
Print Assumptions c16_present_or_missing.

Example c16_example :
  missing c14_tree [[83; 117; 98]; [66]] DoesNotExist /\ missing c14_tree [[98; 46; 116]; [66]] IsNotDirectory
  /\ c14_at Ok [83; 117; 98; 47; 66] = Err DoesNotExist
  /\ c14_at Ok [98; 46; 116; 47; 66] = Err IsNotDirectory.
Proof.
  split; [|split; [|vm_all]].
  - eapply ms_step; [right; left; reflexivity|reflexivity|]. constructor. intros n t [H|[H|[]]]; injection H as <- _; discriminate.
  - eapply ms_file; [left; reflexivity|reflexivity|discriminate].
Qed.

(** C17 *)
Theorem c17_listing_is_exact :
  forall m t img v, source t -> packs m t img -> read_volume (file_dev img) = Ok v ->
  exists out, returns (fun fuel => file_tree fuel (file_dev img) (v_root v)) (Ok out)
    /\ Permutation (map entry_row out) (rows [] t).
Proof. exact c17_lemma. Qed.
Print Assumptions c17_listing_is_exact.

Example c17_example :
  (let* v := read_volume (file_dev c14_img) in
   let* out := file_tree 20 (file_dev c14_img) (v_root v) in Ok (map entry_row out))
  = Ok [([], [83; 117; 98], None); ([], [122], None); ([], [98; 46; 116], Some 2);
        ([47; 83; 117; 98], [65], Some 0); ([47; 83; 117; 98], [108], Some 3000)].
Proof. vm_compute. reflexivity. Qed.

(** C18 *)
Theorem c18_scan_agrees_with_walk :
  forall m t img v p cs, source t -> packs m t img -> read_volume (file_dev img) = Ok v -> at_path t p (FDir cs) ->
  exists r, region_at (file_dev img) (v_root v) p r /\
  exists es ws, returns (fun fuel => scan_all fuel (file_dev img) r) (Ok es)
    /\ returns (fun fuel => walk_dirent_tree fuel (file_dev img) r) (Ok ws)
    /\ Permutation (map record_of es) (map record_of ws) /\ Permutation (map name_str ws) (map fst cs).
Proof. exact c18_lemma. Qed.
Print Assumptions c18_scan_agrees_with_walk.

(** A path leads to one region only. *)
Theorem c18_region_is_unique :
  forall img v p r r', region_at (file_dev img) (v_root v) p r -> region_at (file_dev img) (v_root v) p r' -> r = r'.
Proof. exact c18_unique. Qed.
Print Assumptions c18_region_is_unique.

Example c18_example :
  (let* v := read_volume (file_dev c14_img) in
   let* es := scan_all 20 (file_dev c14_img) (v_root v) in
   let* ws := walk_dirent_tree 20 (file_dev c14_img) (v_root v) in Ok (map name_str es, map name_str ws))
  = Ok ([[83; 117; 98]; [98; 46; 116]; [122]], [[83; 117; 98]; [122]; [98; 46; 116]]).
Proof. vm_compute. reflexivity. Qed.

(** C19 *)
Theorem c19_packing_succeeds_exactly_on_representable_trees :
  forall m t fs evs, source t -> presents fs t -> copies fs t ->
  exists img evs' o, returns (fun fuel => create_xdvdfs_image fuel m file_wdev fs ([], evs)) ((img, evs'), o)
   /\ (representable m t /\ o = Ok tt
       \/ ~ representable m t /\ exists e, o = Err (InvalidFileStructureError e) /\ reason m t e).
Proof. exact c19_lemma. Qed.
Print Assumptions c19_packing_succeeds_exactly_on_representable_trees.

(** Names "a" and "A"; a name with U+3042; a name of 256 bytes. *)
Example c19_example :
  snd (create_xdvdfs_image 10 Debug file_wdev (std_fs (FDir [([97], FFile []); ([65], FDir [])])) ([], [])) = Err (InvalidFileStructureError DuplicateFileName)
  /\ snd (create_xdvdfs_image 10 Debug file_wdev (std_fs (FDir [([97], FDir [([12354], FFile [])])])) ([], [])) = Err (InvalidFileStructureError WStringEncodingError)
  /\ snd (create_xdvdfs_image 10 Debug file_wdev (std_fs (FDir [(fill 256 97, FFile [])])) ([], [])) = Err (InvalidFileStructureError FileNameTooLong)
  /\ snd (create_xdvdfs_image 10 Debug file_wdev (std_fs (FDir [(fill 255 97, FFile [])])) ([], [])) = Ok tt.
Proof. vm_all. Qed.

(** C20 *)
Theorem c20_packing_never_panics :
  forall m t fs evs, source t -> presents fs t -> copies fs t ->
  exists img evs' o, returns (fun fuel => create_xdvdfs_image fuel m file_wdev fs ([], evs)) ((img, evs'), o)
   /\ (o = Ok tt \/ exists e, o = Err (InvalidFileStructureError e) /\ reason m t e).
Proof. exact outcome_lemma. Qed.
Print Assumptions c20_packing_never_panics.

(** An empty source directory. *)
Example c20_example :
  (let r := create_xdvdfs_image 2 Release file_wdev (std_fs (FDir [])) ([], []) in (snd r, len (fst (fst r)), snd (fst r)))
  = (Ok tt, 131072, [EDiscoveredDirectory 0; EFileCount 0; EDirCount 1; EDirAdded [] 33; EFinishedPacking]).
Proof. vm_compute. reflexivity. Qed.
