(** Properties C37 and C38: the sector-linear device used for compression
    (write/fs/sector_linear.rs, cmd_compress.rs). *)
From Verif Require Import M_Base M_Util M_Layout M_Avl M_Sector M_Dirtab M_Read M_Img M_Dev M_Trie M_Xfs M_Lin.
From Verif Require Import S_Avl S_Codec S_Table S_Read S_Img S_Dev S_Trie S_Xfs S_Lin.
From Verif Require Import P_Vm.
From Verif Require Import P_Base P_More P_Lin P_Compress.
From Coq Require Import Init.Byte.
Local Open Scope N_scope.

(** C37. [img] is what packing to a file produces. The run on the sector-linear
    device succeeds, has the same size, and each sector is that of [img]. *)
Theorem c37_sectors_are_those_of_the_packed_image :
  forall m t img fs evs, source t -> packs m t img -> presents fs t -> sector_copies fs t ->
  exists s evs', returns (fun fuel => compress_layout fuel m fs ([], evs)) ((s, evs'), Ok tt)
    /\ lin_len s = len img /\ forall k, exists b, read_sector fs s k = Ok b /\ is_sector img k b.
Proof. exact c37_lemma. Qed.
Print Assumptions c37_sectors_are_those_of_the_packed_image.

(** Host directories satisfy the assumption about reading sectors. *)
Theorem c37_host_directories : forall t, proper t -> sector_copies (std_mem_fs t) t.
Proof. exact std_sector_copies. Qed.
Print Assumptions c37_host_directories.

Definition c37_tree : ftree :=
  FDir [([97], FDir [([98], FFile (fill 2049 x42)); ([99], FFile [])]); ([100], FFile [x41; x43])].
Example c37_source : source c37_tree.
Proof.
  split; [reflexivity|]. split; [|split; [|reflexivity]].
  - unfold proper. repeat (first [apply every_dir_file|apply every_dir_node]; repeat constructor; cbn [map fst snd]);
      intros H; cbn in H; repeat destruct H as [H|H]; try discriminate; auto.
  - repeat (first [apply every_dir_file|apply every_dir_node]; repeat constructor; cbn [snd]); try discriminate.
Qed.
Definition c37_img : list byte := fst (fst (create_xdvdfs_image 10 Debug file_wdev (std_fs c37_tree) ([], []))).
Definition c37_lin : lin := fst (fst (compress_layout 10 Debug (std_mem_fs c37_tree) ([], []))).
Definition is_slice (img : list byte) (k : N) (r : res ioerr (list byte)) : bool :=
  match r with Ok b => bytes_eqb b (slice img (2048 * k) 2048) | _ => false end.
Example c37_packed : snd (create_xdvdfs_image 10 Debug file_wdev (std_fs c37_tree) ([], [])) = Ok tt.
Proof. vm_compute. reflexivity. Qed.
Example c37_run :
  snd (compress_layout 10 Debug (std_mem_fs c37_tree) ([], [])) = Ok tt
  /\ lin_len c37_lin = 131072 /\ len c37_img = 131072 /\ len c37_lin = 32
  /\ forallb (fun k => is_slice c37_img k (read_sector (std_mem_fs c37_tree) c37_lin k)) [0; 31; 32; 33; 34; 35; 36; 37; 38; 63] = true
  /\ lin_get 37 c37_lin = Some (BFile [[97]; [98]] 1).
Proof. vm_all. Qed.

(** C38. A run from an existing image [d] that shows the tree [t]: the layout is
    computed; if a file is shorter than one sector and not empty, reading its
    sector panics; otherwise, if the unused ends of the sectors are zero in [d],
    each sector is that of the image that packing to a file produces. *)
Theorem c38_compressing_an_image_partial :
  forall m d v t img evs, scans d t (v_root v) -> source t -> latin_tree t -> packs m t img ->
  exists n s evs', lin_len s = len img /\ forall fuel, (n <= fuel)%nat -> exists c,
    compress_from_volume fuel m d v ([], evs) = ((s, evs'), Ok c)
    /\ (forall p b, at_path t p (FFile b) -> 0 < len b < 2048 ->
          exists k, 2048 * k < len img /\ read_sector (xfs_fs (default_copier d mem_wdev) c) s k = Panic PAssert)
    /\ (padded d t (v_root v) -> no_small_file t ->
          forall k, exists b, read_sector (xfs_fs (default_copier d mem_wdev) c) s k = Ok b /\ is_sector img k b).
Proof. exact c38_lemma. Qed.
Print Assumptions c38_compressing_an_image_partial.

(** Images made by the tool have zeros there. *)
Theorem c38_packed_images_are_padded_partial :
  forall m t img, source t -> packs m t img ->
  exists v t', read_volume (file_dev img) = Ok v /\ same_tree t t' /\ padded (file_dev img) t' (v_root v) /\ scans (file_dev img) t' (v_root v).
Proof. exact c38_padded. Qed.
Print Assumptions c38_packed_images_are_padded_partial.

(** Compressing an image with a file of one byte panics. *)
Definition c38_run (t : ftree) (k : N) : res werr unit * (res rerr (res werr unit * res ioerr (list byte))) :=
  let r := create_xdvdfs_image 10 Debug file_wdev (std_fs t) ([], []) in
  let d := file_dev (fst (fst r)) in
  (snd r, let* v := read_volume d in
          let r' := compress_from_volume 100 Debug d v ([], []) in
          match snd r' with
          | Ok c => Ok (Ok tt, read_sector (xfs_fs (default_copier d mem_wdev) c) (fst (fst r')) k)
          | Err e => Ok (Err e, OutOfFuel)
          | Panic p => Panic p
          | OutOfFuel => OutOfFuel
          end).
Theorem c38_compressing_a_packed_image_refuted :
  exists t k, source t /\ c38_run t k = (Ok tt, Ok (Ok tt, Panic PAssert)).
Proof.
  exists (FDir [([97], FFile [x41])]), 34. split; [|vm_compute; reflexivity].
  split; [reflexivity|]. split; [|split; [|reflexivity]].
  - unfold proper. repeat (first [apply every_dir_file|apply every_dir_node]; repeat constructor; cbn [map fst snd]);
      intros H; cbn in H; repeat destruct H as [H|H]; try discriminate; auto.
  - repeat (first [apply every_dir_file|apply every_dir_node]; repeat constructor; cbn [snd]); try discriminate.
Qed.
Print Assumptions c38_compressing_a_packed_image_refuted.

(** A file of more than one sector is read. *)
Example c38_large :
  match snd (c38_run (FDir [([97], FFile (fill 2049 x42))]) 35) with
  | Ok (_, Ok b) => (byte_at b 0, byte_at b 1, len b) = (x42, x00, 2048) | _ => False end.
Proof. vm_compute. reflexivity. Qed.
