(** Properties C21-C24: geometry of packed images, interrupted runs, progress
    events and listing order (write/img.rs). *)
From Verif Require Import M_Base M_Util M_Layout M_Avl M_Sector M_Dirtab M_Read M_Img.
From Verif Require Import S_Avl S_Codec S_Table S_Read S_Img.
From Verif Require Import P_Vm.
From Verif Require Import P_Base P_Packed P_Run P_More P_Geom P_Events P_Order.
From Coq Require Import Init.Byte Permutation.
Local Open Scope N_scope.

(** C21 *)
Theorem c21_image_geometry :
  forall m t img, source t -> packs m t img ->
  len img mod 65536 = 0
  /\ exists b root, file_dev img 65536 2048 = Ok b /\ descriptor b root /\ r_sector root = 33
     /\ (forall p p' t1 t2, at_path t p t1 -> at_path t p' t2 -> p <> p' ->
           exists r r', region_at (file_dev img) root p r /\ region_at (file_dev img) root p' r' /\ 33 <= r_sector r /\
             (r_sector r + sectors (r_size r) <= r_sector r' \/ r_sector r' + sectors (r_size r') <= r_sector r))
     /\ forall i, byte_at img i <> x00 ->
          65536 <= i < 67584
          \/ exists p t' r, at_path t p t' /\ region_at (file_dev img) root p r /\ 2048 * r_sector r <= i < 2048 * r_sector r + extent t' r.
Proof. exact c21_lemma. Qed.
Print Assumptions c21_image_geometry.

(** a (one byte), d (a directory with an empty file B) *)
Definition c21_tree : ftree := FDir [([97], FFile [x41]); ([100], FDir [([66], FFile [])])].
Notation c21_run := (create_xdvdfs_image 10 Debug file_wdev (std_fs c21_tree) ([], [])).
Notation c21_img := (fst (fst c21_run)).
Example c21_source : source c21_tree.
Proof.
  split; [reflexivity|]. split; [|split; [|reflexivity]].
  - unfold proper. repeat (first [apply every_dir_file|apply every_dir_node]; repeat constructor; cbn [map fst snd]);
      intros H; cbn in H; repeat destruct H as [H|H]; try discriminate; auto.
  - repeat (first [apply every_dir_file|apply every_dir_node]; repeat constructor; cbn [snd]); try discriminate.
Qed.
Example c21_example :
  snd c21_run = Ok tt /\ packs Debug c21_tree c21_img /\ len c21_img = 131072 /\ byte_at c21_img (34 * 2048) = x41 /\ byte_at c21_img (34 * 2048 + 1) = x00.
Proof.
  assert (H : snd c21_run = Ok tt) by (vm_compute; reflexivity). split; [exact H|]. split; [exact (std_packs Debug c21_tree 10 [] c21_source H)|].
  vm_all.
Qed.

(** C22. Writes reach the output in order; after [k] bytes the device fails, with
    the last write torn. *)
Theorem c22_interrupted_packing_is_rejected_or_complete :
  forall m t x fs fuel k evs img k' evs' r, source t -> presents fs t -> crash_copies fs t ->
  create_xdvdfs_image fuel m (crash_wdev x) fs (([], k), evs) = (((img, k'), evs'), r) -> r <> OutOfFuel ->
  ((forall v, read_volume (file_dev img) <> Ok v) \/ readable (file_dev img) t)
  /\ (r = Ok tt -> readable (file_dev img) t).
Proof. exact c22_lemma. Qed.
Print Assumptions c22_interrupted_packing_is_rejected_or_complete.

(** Such file systems exist, for every tree. *)
Theorem c22_crashing_host :
  forall x t, proper t -> presents (crash_fs x t) t /\ crash_copies (crash_fs x t) t.
Proof. exact crash_fs_ok. Qed.
Print Assumptions c22_crashing_host.

(** 2 tables of 2048 bytes, 1 byte of data, then the descriptor: stopping one byte
    before the end of the descriptor is detected; stopping during the padding is
    an error, but the image is complete. *)
Definition c22_after (k : N) : res werr unit * bool :=
  let r := create_xdvdfs_image 10 Debug (crash_wdev (IoOther 5)) (crash_fs (IoOther 5) c21_tree) (([], k), []) in
  (snd r, match read_volume (file_dev (fst (fst (fst r)))) with Ok _ => true | _ => false end).
Example c22_example :
  c22_after 6144 = (Err (BlockDeviceError (IoOther 5)), false) /\ c22_after 6145 = (Err (BlockDeviceError (IoOther 5)), true) /\ snd (c22_after 200000) = true.
Proof. vm_all. Qed.

(** C23 *)
Theorem c23_progress_adds_up :
  forall m t fs fuel evs img evs', source t -> presents fs t -> copies fs t ->
  create_xdvdfs_image fuel m file_wdev fs ([], evs) = ((img, evs'), Ok tt) ->
  exists body v, evs' = evs ++ body ++ [EFinishedPacking] /\ ~ In EFinishedPacking body /\ read_volume (file_dev img) = Ok v
  /\ (forall n, In (EFileCount n) body <-> n = len (filter is_file_added body))
  /\ (forall n, In (EDirCount n) body <-> n = len (filter is_dir_added body))
  /\ NoDup (filter is_dir_added body) /\ NoDup (filter is_file_added body)
  /\ (forall p s, In (EDirAdded p s) body <-> exists cs r, at_path t p (FDir cs) /\ region_at (file_dev img) (v_root v) p r /\ r_sector r = s)
  /\ (forall p s, In (EFileAdded p s) body <-> p <> [] /\ exists t' r, at_path t p t' /\ region_at (file_dev img) (v_root v) p r /\ r_sector r = s).
Proof. exact c23_lemma. Qed.
Print Assumptions c23_progress_adds_up.

(** Whatever the device and the source do: the last event of a successful run is
    [EFinishedPacking], and no other run reports it. *)
Theorem c23_finished_only_on_success :
  forall D fuel m (W : wdev D) (fs : fsys D) d evs d' evs' r,
  create_xdvdfs_image fuel m W fs (d, evs) = ((d', evs'), r) ->
  exists new, evs' = evs ++ new /\
    (r = Ok tt /\ (exists new', new = new' ++ [EFinishedPacking] /\ ~ In EFinishedPacking new')
     \/ r <> Ok tt /\ ~ In EFinishedPacking new).
Proof. exact finished_lemma. Qed.
Print Assumptions c23_finished_only_on_success.

Example c23_example :
  snd (fst c21_run) = [EDiscoveredDirectory 2; EDiscoveredDirectory 1; EFileCount 3; EDirCount 2;
     EDirAdded [] 33; EFileAdded [[97]] 34; EFileAdded [[100]] 35; EDirAdded [[100]] 35; EFileAdded [[100]; [66]] 36; EFinishedPacking].
Proof. vm_compute. reflexivity. Qed.

(** C24 *)
Theorem c24_listing_order_does_not_matter :
  forall m m' t t' img img' v v', source t -> source t' -> same_tree t t' -> packs m t img -> packs m' t' img' ->
  read_volume (file_dev img) = Ok v -> read_volume (file_dev img') = Ok v' ->
  (forall segs path, path_of segs path ->
     (exists x, returns (fun fuel => walk_path fuel (file_dev img) (v_root v) path) (Err x)
             /\ returns (fun fuel => walk_path fuel (file_dev img') (v_root v') path) (Err x))
     \/ (exists e e', returns (fun fuel => walk_path fuel (file_dev img) (v_root v) path) (Ok e)
             /\ returns (fun fuel => walk_path fuel (file_dev img') (v_root v') path) (Ok e')
             /\ name_str e = name_str e' /\ is_dir e = is_dir e'
             /\ (is_dir e = false -> r_size (region_of e) = r_size (region_of e')
                  /\ exists b, read_data_all (file_dev img) (d_dirent (e_node e)) = Ok b /\ read_data_all (file_dev img') (d_dirent (e_node e')) = Ok b)))
  /\ exists out out', returns (fun fuel => file_tree fuel (file_dev img) (v_root v)) (Ok out)
       /\ returns (fun fuel => file_tree fuel (file_dev img') (v_root v')) (Ok out')
       /\ Permutation (map entry_row out) (map entry_row out').
Proof. exact c24_lemma. Qed.
Print Assumptions c24_listing_order_does_not_matter.

(** The same tree listed in another order: the images differ, the listings agree. *)
Definition c24_tree : ftree := FDir [([100], FDir [([66], FFile [])]); ([97], FFile [x41])].
Notation c24_img := (fst (fst (create_xdvdfs_image 10 Debug file_wdev (std_fs c24_tree) ([], [])))).
Definition c24_rows (img : list byte) : res rerr (list (str * str * option N)) :=
  let* v := read_volume (file_dev img) in let* out := file_tree 20 (file_dev img) (v_root v) in Ok (map entry_row out).
Example c24_example :
  same_tree c21_tree c24_tree
  /\ c24_rows c21_img = Ok [([], [97], Some 1); ([], [100], None); ([47; 100], [66], Some 0)]
  /\ c24_rows c24_img = Ok [([], [100], None); ([], [97], Some 1); ([47; 100], [66], Some 0)].
Proof.
  split; [|vm_all]. apply same_dir with (ds' := [([97], FFile [x41]); ([100], FDir [([66], FFile [])])]); [apply perm_swap|].
  repeat first [apply Forall2_cons|apply Forall2_nil]; cbn [fst snd]; split; auto; try constructor.
  apply same_dir with (ds' := [([66], FFile [])]); [reflexivity|]. repeat constructor.
Qed.
