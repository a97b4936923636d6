(** Proofs of C160. *)
From Verif Require Import M_Base M_Util M_Layout M_Avl M_Sector M_Dirtab M_Read M_Img M_Dev M_Check M_Trie M_Xfs M_Remap M_Cli M_Fuse.
From Verif Require Import S_Avl S_Codec S_Read S_Img S_Buffer.
From Verif Require Import P_Base P_Layout P_Read P_Check P_Witness.
From Coq Require Import Init.Byte Lia.
Local Open Scope N_scope.

Section Small.
Variables (k : N) (d d' : dev).
Hypothesis HK : 2048 <= k.
Hypothesis HE : same_up_to k d d'.

Lemma small o n : n <= 2048 -> d o n = d' o n.
Proof using HK HE. intros H. apply HE. lia. Qed.
Lemma namelen_small b : d_namelen (d_dirent (dnode_de b)) <= 2048.
Proof.
  cbn [dnode_de d_dirent d_namelen]. pose proof (unle_bound (slice b 13 1)) as H.
  assert (L : len (slice b 13 1) <= 1) by (unfold slice, len; rewrite firstn_length; lia).
  assert (E : len (slice b 13 1) = 0 \/ len (slice b 13 1) = 1) by lia. destruct E as [E|E]; rewrite E in H; [change (256 ^ 0) with 1 in H|change (256 ^ 1) with 256 in H]; lia.
Qed.
Lemma read_volume_small : read_volume d = read_volume d'.
Proof using HK HE. unfold read_volume. rewrite small by lia. reflexivity. Qed.
Lemma read_dirent_small o : read_dirent d o = read_dirent d' o.
Proof using HK HE.
  unfold read_dirent. rewrite small by lia. destruct (io (d' o 14)) as [b| | |]; cbn [bind]; auto.
  destruct (deserialize_dirent_node b o) as [e|] eqn:E; auto. rewrite small; [reflexivity|].
  unfold deserialize_dirent_node in E. destruct (_ || _)%bool; [discriminate|]. injection E as <-. apply namelen_small.
Qed.
Lemma find_loop_small r name fuel : forall o, find_loop fuel d r name o = find_loop fuel d' r name o.
Proof using HK HE.
  induction fuel as [|fuel IH]; intros o; auto. cbn [find_loop]. rewrite read_dirent_small. destruct (read_dirent d' o) as [x| | |]; cbn [bind]; auto.
  destruct (ok_or x DoesNotExist) as [e| | |]; cbn [bind]; auto.
  destruct (cmp_ignore_case_utf8 name (name_str e)); auto;
    (destruct (_ =? 0); auto; destruct (region_offset _ _); cbn [bind]; auto).
Qed.
Lemma find_dirent_small fuel r name : find_dirent fuel d r name = find_dirent fuel d' r name.
Proof using HK HE. unfold find_dirent. destruct (region_is_empty r); auto. destruct (region_offset r 0); cbn [bind]; auto. apply find_loop_small. Qed.
Lemma walk_segments_small fuel segs : forall r, walk_segments fuel d r segs = walk_segments fuel d' r segs.
Proof using HK HE.
  induction segs as [|s segs IH]; intros r; auto. cbn [walk_segments]. rewrite find_dirent_small. destruct (find_dirent fuel d' r s) as [e| | |]; cbn [bind]; auto.
  destruct segs; auto. destruct (ok_or _ _); cbn [bind]; auto.
Qed.
Lemma walk_path_small fuel r path : walk_path fuel d r path = walk_path fuel d' r path.
Proof using HK HE. unfold walk_path. destruct path; auto. destruct (str_eqb _ _); auto. apply walk_segments_small. Qed.
Lemma walk_loop_small r fuel : forall st out, walk_loop fuel d r st out = walk_loop fuel d' r st out.
Proof using HK HE.
  induction fuel as [|fuel IH]; intros [|top st] out; auto. cbn [walk_loop]. destruct (region_offset r top) as [o| | |]; cbn [bind]; auto.
  rewrite read_dirent_small. destruct (read_dirent d' o) as [[e|]| | |]; cbn [bind]; auto.
Qed.
Lemma walk_dirent_tree_small fuel r : walk_dirent_tree fuel d r = walk_dirent_tree fuel d' r.
Proof using HK HE. unfold walk_dirent_tree. destruct (region_is_empty r); auto. apply walk_loop_small. Qed.
Lemma file_tree_loop_small fuel : forall st out, file_tree_loop fuel d st out = file_tree_loop fuel d' st out.
Proof using HK HE.
  induction fuel as [|fuel IH]; intros [|[p r] st] out; auto. cbn [file_tree_loop]. rewrite walk_dirent_tree_small.
  destruct (walk_dirent_tree fuel d' r); cbn [bind]; auto.
Qed.
Lemma file_tree_small fuel r : file_tree fuel d r = file_tree fuel d' r.
Proof using HK HE. apply file_tree_loop_small. Qed.
Lemma next_sector_small s : next_sector d s = next_sector d' s.
Proof using HK HE. unfold next_sector. rewrite small by lia. reflexivity. Qed.
Lemma next_loop_small fuel : forall s, next_loop fuel d s = next_loop fuel d' s.
Proof using HK HE.
  induction fuel as [|fuel IH]; intros s; auto. cbn [next_loop]. destruct (rassert (E := rerr) (s_offset s + 14 <? SECTOR_SIZE)); cbn [bind]; auto.
  destruct (deserialize_dirent_node _ _) as [e|].
  - destruct (rassert (E := rerr) _); cbn [bind]; auto. destruct (SECTOR_SIZE <=? _); auto. rewrite next_sector_small. reflexivity.
  - destruct (s_sector s + 1 <? s_end s); auto. rewrite next_sector_small. destruct (next_sector d' s); cbn [bind]; auto.
Qed.
Lemma next_entry_small fuel s : next_entry fuel d s = next_entry fuel d' s.
Proof using HK HE. unfold next_entry. destruct (s_end s <=? s_sector s); auto. apply next_loop_small. Qed.
Lemma scan_dirent_tree_small r : scan_dirent_tree d r = scan_dirent_tree d' r.
Proof using HK HE. unfold scan_dirent_tree. destruct (region_is_empty r); auto. destruct (region_offset r 0); cbn [bind]; auto. rewrite small by lia. reflexivity. Qed.
Lemma collect_scan_small fuel : forall s, collect_scan fuel d s = collect_scan fuel d' s.
Proof using HK HE.
  induction fuel as [|fuel IH]; intros s; auto. cbn [collect_scan]. rewrite next_entry_small. destruct (next_entry (S fuel) d' s) as [[[e|] s']| | |]; cbn [bind]; auto.
  rewrite IH. reflexivity.
Qed.
Lemma scan_all_small fuel r : scan_all fuel d r = scan_all fuel d' r.
Proof using HK HE. unfold scan_all. rewrite scan_dirent_tree_small. destruct (scan_dirent_tree d' r); cbn [bind]; auto. apply collect_scan_small. Qed.

Lemma list_loop_small fuel : forall s node, list_loop fuel d s node = list_loop fuel d' s node.
Proof using HK HE.
  induction fuel as [|fuel IH]; intros s node; auto. cbn [list_loop]. rewrite next_entry_small. destruct (next_entry (S fuel) d' s) as [[[e|] s']| | |]; auto.
  destruct (insert_tail node (name_str e) e _); auto. rewrite IH. reflexivity.
Qed.
Lemma xfs_read_dir_small fuel v c dir : xfs_read_dir fuel d v c dir = xfs_read_dir fuel d' v c dir.
Proof using HK HE.
  unfold xfs_read_dir. cbv zeta. set (found := match dir with [] => _ | _ => _ end).
  destruct found as [[r node]| | |]; cbn [bind]; auto. rewrite scan_dirent_tree_small. destruct (scan_dirent_tree d' r); cbn [bind]; auto.
  rewrite list_loop_small. reflexivity.
Qed.
Lemma read_data_all_small x : r_size (d_region x) <= k -> read_data_all d x = read_data_all d' x.
Proof using HE. intros H. unfold read_data_all. destruct (_ =? 0); auto. destruct (region_offset _ _); cbn [bind]; auto. rewrite HE by exact H. reflexivity. Qed.
Lemma checksum_fold_small m : (forall x, In x m -> is_directory (d_dirent (e_node (snd x))) = false -> r_size (d_region (d_dirent (e_node (snd x)))) <= k) ->
  forall h, foldM (checksum_step d) h m = foldM (checksum_step d') h m.
Proof using HE.
  induction m as [|x m IH]; intros H h; auto. cbn [foldM]. assert (X : checksum_step d h x = checksum_step d' h x).
  { unfold checksum_step. destruct (is_directory _) eqn:E; auto. rewrite read_data_all_small; [reflexivity|]. apply H; [left; reflexivity|exact E]. }
  rewrite X. destruct (checksum_step d' h x); cbn [bind]; auto. apply IH. intros y Hy. apply H. right. exact Hy.
Qed.
End Small.

Lemma checksum_small k H fuel v d d' : 2048 <= k -> same_up_to k d d' ->
  (forall tree dir e, file_tree fuel d (v_root v) = Ok tree -> In (dir, e) tree -> is_directory (d_dirent (e_node e)) = false -> r_size (d_region (d_dirent (e_node e))) <= k) ->
  checksum H fuel d v = checksum H fuel d' v.
Proof.
  intros HK HE HS. unfold checksum. rewrite <- (file_tree_small k d d' HK HE). destruct (file_tree fuel d (v_root v)) as [tree| | |] eqn:E; cbn [bind]; auto.
  rewrite (checksum_fold_small k d d' HE); [reflexivity|]. intros [key e] Hin D. cbn [snd] in *.
  destruct (checksum_map_spec tree) as (_ & M2 & _). destruct (M2 _ _ Hin) as (q & Hq & _). eapply HS; eauto.
Qed.

Lemma rw_copy_small {D} (W : wdev D) o i size dest : buffers_up_to COPY_BUFFER (fun d => rw_copy d W i o size dest).
Proof.
  intros d d' HE. unfold rw_copy. generalize (S (N.to_nat (size / COPY_BUFFER))) as fuel. generalize 0 as copied. intros copied fuel. revert copied dest.
  induction fuel as [|fuel IH]; intros copied dest; cbn [rw_copy_loop]; destruct (copied <? size); auto. cbv zeta.
  rewrite (HE (i + copied) (N.min COPY_BUFFER (size - copied))) by apply N.le_min_l.
  destruct (d' _ _) as [b| | |]; cbn [map_err]; auto. destruct (dev_write W dest (o + copied) b) as [dest' r]. destruct (map_err BlockDevWriteErr r); auto.
Qed.

Lemma read_data_offset_small x size offset : buffers_up_to (N.min size (r_size (d_region x))) (fun d => read_data_offset d x size offset).
Proof.
  intros d d' HE. unfold read_data_offset. cbv zeta. destruct (_ =? 0); auto. destruct (region_offset _ _); cbn [bind]; auto. rewrite HE by lia. reflexivity.
Qed.
Lemma read_data_all_buffer x : buffers_up_to (r_size (d_region x)) (fun d => read_data_all d x).
Proof. intros d d' HE. apply (read_data_all_small _ d d' HE). lia. Qed.

(** ** The mounted image *)
Lemma fuse_lookup_small fuel r c parent name : buffers_up_to 2048 (fun d => let (fs, a) := fuse_lookup fuel (mkMount d r c) parent name in (m_cache fs, a)).
Proof.
  intros d d' HE. unfold fuse_lookup. change (dirtab_by_inode (mkMount d r c) parent) with (dirtab_by_inode (mkMount d' r c) parent).
  destruct (dirtab_by_inode (mkMount d' r c) parent) as [t|]; [|reflexivity]. cbn [m_dev m_cache m_root].
  rewrite (walk_path_small 2048 d d' (N.le_refl _) HE). destruct (eio (walk_path fuel d' t name)) as [e| | |]; try reflexivity.
  destruct (get_or_assign c e) as [c' i]. reflexivity.
Qed.
Lemma skip_small d d' (HE : same_up_to 2048 d d') offset fuel : forall s idx, skip_entries fuel d s idx offset = skip_entries fuel d' s idx offset.
Proof.
  induction fuel as [|fuel IH]; intros s idx; auto. cbn [skip_entries]. destruct (offset <=? idx); auto.
  rewrite (next_entry_small 2048 d d' (N.le_refl _) HE). destruct (next_entry (S fuel) d' s) as [[[e|] s']| | |]; cbn [bind]; auto.
Qed.
Lemma fill_small d d' (HE : same_up_to 2048 d d') full fuel : forall s idx c l, fill_entries fuel d full s idx c l = fill_entries fuel d' full s idx c l.
Proof.
  induction fuel as [|fuel IH]; intros s idx c l; auto. cbn [fill_entries].
  rewrite (next_entry_small 2048 d d' (N.le_refl _) HE). destruct (next_entry (S fuel) d' s) as [[[e|] s']| | |]; auto.
  destruct (get_or_assign c e) as [c1 i]. destruct (full l _); auto.
Qed.
Lemma fuse_readdir_small fuel r c ino offset full : buffers_up_to 2048 (fun d => let (fs, a) := fuse_readdir fuel (mkMount d r c) ino offset full in (m_cache fs, a)).
Proof.
  intros d d' HE. unfold fuse_readdir. change (dirtab_by_inode (mkMount d r c) ino) with (dirtab_by_inode (mkMount d' r c) ino).
  destruct (dirtab_by_inode (mkMount d' r c) ino) as [t|]; [|reflexivity]. cbn [m_dev m_cache m_root].
  rewrite (scan_dirent_tree_small 2048 d d' (N.le_refl _) HE). destruct (eio (scan_dirent_tree d' t)) as [s| | |]; try reflexivity. cbv zeta.
  destruct (_ && _)%bool; [reflexivity|]. destruct (_ && _)%bool; [reflexivity|].
  rewrite (skip_small d d' HE). destruct (eio (skip_entries fuel d' s 2 offset)) as [[s' i]| | |]; try reflexivity.
  rewrite (fill_small d d' HE). destruct (fill_entries fuel d' full s' i c _). reflexivity.
Qed.
Lemma fuse_read_small r c ino offset size : buffers_up_to size (fun d => fuse_read (mkMount d r c) ino offset size).
Proof.
  intros d d' HE. unfold fuse_read. change (dirent_by_inode (mkMount d r c) ino) with (dirent_by_inode (mkMount d' r c) ino).
  destruct (dirent_by_inode (mkMount d' r c) ino) as [e| |]; auto. cbn [m_dev]. f_equal. apply read_data_offset_small.
  intros o n Hn. apply HE. lia.
Qed.

(** ** A file of almost 4 GiB in an image of 68 KiB *)
Definition huge_img : list byte := image_of (record 0 0 40 4294967295 32 [x61]) [].
Definition small_dev : dev := fun o n => if n <=? 4294967294 then file_dev huge_img o n else Err OutOfBounds.
Lemma small_dev_same : same_up_to 4294967294 (file_dev huge_img) small_dev.
Proof. intros o n H. unfold small_dev. destruct (N.leb_spec n 4294967294); [reflexivity|]. exfalso. apply (N.lt_irrefl n). eapply N.le_lt_trans; eauto. Qed.
Lemma huge_volume : exists v, read_volume (file_dev huge_img) = Ok v /\ v_root v = root33.
Proof. eexists. split; [vm_compute; reflexivity|reflexivity]. Qed.
Lemma traversal_small :
  buffers_up_to 2048 read_volume
  /\ (forall fuel r path, buffers_up_to 2048 (fun d => walk_path fuel d r path))
  /\ (forall fuel r, buffers_up_to 2048 (fun d => walk_dirent_tree fuel d r))
  /\ (forall fuel r, buffers_up_to 2048 (fun d => file_tree fuel d r))
  /\ (forall fuel r, buffers_up_to 2048 (fun d => scan_all fuel d r))
  /\ (forall fuel v c dir, buffers_up_to 2048 (fun d => xfs_read_dir fuel d v c dir)).
Proof.
  pose proof (N.le_refl 2048) as K. ssplit.
  - intros d d' H. exact (read_volume_small 2048 d d' K H).
  - intros fuel r path d d' H. exact (walk_path_small 2048 d d' K H fuel r path).
  - intros fuel r d d' H. exact (walk_dirent_tree_small 2048 d d' K H fuel r).
  - intros fuel r d d' H. exact (file_tree_small 2048 d d' K H fuel r).
  - intros fuel r d d' H. exact (scan_all_small 2048 d d' K H fuel r).
  - intros fuel v c dir d d' H. exact (xfs_read_dir_small 2048 d d' K H fuel v c dir).
Qed.
Lemma mounted_small r c :
  (forall fuel parent name, buffers_up_to 2048 (fun d => let (fs, a) := fuse_lookup fuel (mkMount d r c) parent name in (m_cache fs, a)))
  /\ (forall fuel ino offset full, buffers_up_to 2048 (fun d => let (fs, a) := fuse_readdir fuel (mkMount d r c) ino offset full in (m_cache fs, a)))
  /\ (forall ino offset size, buffers_up_to size (fun d => fuse_read (mkMount d r c) ino offset size)).
Proof.
  ssplit; [intros fuel parent name; apply fuse_lookup_small|intros fuel ino offset full; apply fuse_readdir_small|intros ino offset size; apply fuse_read_small].
Qed.
Lemma copying_small D (W : wdev D) input output size dest : buffers_up_to 1048576 (fun d => default_copier d W input output size dest).
Proof. exact (rw_copy_small W output input size dest). Qed.
