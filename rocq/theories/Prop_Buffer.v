(** Property C160: the sizes of the buffers that are filled from an image. *)
From Verif Require Import M_Base M_Util M_Layout M_Read M_Img M_Dev M_Check M_Trie M_Xfs M_Remap M_Cli M_Fuse.
From Verif Require Import S_Read S_Buffer.
From Verif Require Import P_Witness P_Buffer.
From Coq Require Import Init.Byte Lia.
From Coq Require Import List.
Local Open Scope N_scope.

(** C160: recognising, searching, walking and scanning an image fill buffers of at most
    a sector, whatever the image says. *)
Theorem c160_traversal :
  buffers_up_to 2048 read_volume
  /\ (forall fuel r path, buffers_up_to 2048 (fun d => walk_path fuel d r path))
  /\ (forall fuel r, buffers_up_to 2048 (fun d => walk_dirent_tree fuel d r))
  /\ (forall fuel r, buffers_up_to 2048 (fun d => file_tree fuel d r))
  /\ (forall fuel r, buffers_up_to 2048 (fun d => scan_all fuel d r))
  /\ (forall fuel v c dir, buffers_up_to 2048 (fun d => xfs_read_dir fuel d v c dir)).
Proof. exact traversal_small. Qed.
Print Assumptions c160_traversal.

(** Requests of a mounted image: a sector for lookups and listings, the requested size
    for reads. *)
Theorem c160_mounted :
  forall r c,
  (forall fuel parent name, buffers_up_to 2048 (fun d => let (fs, a) := fuse_lookup fuel (mkMount d r c) parent name in (m_cache fs, a)))
  /\ (forall fuel ino offset full, buffers_up_to 2048 (fun d => let (fs, a) := fuse_readdir fuel (mkMount d r c) ino offset full in (m_cache fs, a)))
  /\ (forall ino offset size, buffers_up_to size (fun d => fuse_read (mkMount d r c) ino offset size)).
Proof. exact mounted_small. Qed.
Print Assumptions c160_mounted.

(** Copying out of an image: 1 MiB. *)
Theorem c160_copying :
  forall D (W : wdev D) input output size dest, buffers_up_to 1048576 (fun d => default_copier d W input output size dest).
Proof. exact copying_small. Qed.
Print Assumptions c160_copying.

(** Partial: reading a whole file needs the size it claims, and a checksum that of the
    largest file or a sector. Missing: a bound by the length of the image. *)
Theorem c160_whole_files_partial :
  (forall x, buffers_up_to (r_size (d_region x)) (fun d => read_data_all d x))
  /\ (forall k H fuel v d d', 2048 <= k -> same_up_to k d d' ->
      (forall tree dir e, file_tree fuel d (v_root v) = Ok tree -> In (dir, e) tree -> is_directory (d_dirent (e_node e)) = false ->
        r_size (d_region (d_dirent (e_node e))) <= k) ->
      checksum H fuel d v = checksum H fuel d' v).
Proof. exact (conj read_data_all_buffer checksum_small). Qed.
Print Assumptions c160_whole_files_partial.

(** An image of less than 70000 bytes makes the checksum fill a buffer of
    4294967295 bytes. *)
Theorem c160_whole_files_refuted :
  exists img v d', len img < 70000 /\ read_volume (file_dev img) = Ok v /\ same_up_to 4294967294 (file_dev img) d'
    /\ checksum (fun b => b) 9 (file_dev img) v = Err (IOError UnexpectedEof)
    /\ checksum (fun b => b) 9 d' v = Err (IOError OutOfBounds).
Proof.
  destruct huge_volume as (v & V & R). exists huge_img, v, small_dev. split; [vm_compute; reflexivity|]. split; [exact V|]. split; [exact small_dev_same|].
  unfold checksum. rewrite R. vm_compute. split; reflexivity.
Qed.
Print Assumptions c160_whole_files_refuted.

(** The same image is listed with small buffers, and the file in it is read in pieces. *)
Example c160_example :
  match file_tree 9 (file_dev huge_img) root33 with
  | Ok [(_, e)] => name_str e = [97] /\ r_size (d_region (d_dirent (e_node e))) = 4294967295
      /\ read_data_offset (file_dev huge_img) (d_dirent (e_node e)) 3 0 = Err (IOError UnexpectedEof)
  | _ => False
  end /\ ~ buffers_up_to 4294967294 (fun d => read_data_all d (mkDdata (mkRegion 40 4294967295) 32 1)).
Proof.
  split; [vm_compute; repeat split|]. intros H. specialize (H _ _ small_dev_same). vm_compute in H. discriminate H.
Qed.
