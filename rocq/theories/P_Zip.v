(** Proofs for C167: reading compressed images. *)
From Verif Require Import M_Base M_Util M_Layout M_Read M_Img M_Check M_Remap M_Cli M_Zip.
From Verif Require Import S_Read S_Img S_Check S_Cli S_Flaky S_Zip.
From Verif Require Import P_Base P_Witness P_Cli P_Flaky.
From Coq Require Import Init.Byte Lia Permutation Strings.String.
From Coq Require Import List.
Local Close Scope string_scope.
Local Open Scope N_scope.

Lemma andthen_done o : andthen o done = o.
Proof.
  destruct o as [l [u|e|p|]]; unfold andthen, done; try reflexivity. destruct u. cbn. try rewrite app_nil_r. reflexivity.
Qed.
Lemma plain_command m H fuel c file : on_plain m H fuel c file = command_of m H fuel c file.
Proof. destruct c; try reflexivity. cbn [command_of cmd_checksum]. rewrite andthen_done. reflexivity. Qed.
Lemma reads m H fuel c : read_command (command_of m H fuel c).
Proof.
  destruct c; cbn [command_of]; [apply (rc_ls fuel path scan)|apply (rc_tree fuel name)|apply (rc_info m fuel entry)|apply (rc_md5 H fuel path)|apply (rc_checksum H fuel name)].
Qed.

Lemma inflates_more z img : inflates z img -> fails_more z (file_dev img).
Proof.
  intros (A & B) o n. unfold file_dev. destruct (N.leb_spec (o + n) (len img)) as [L|L].
  - left. rewrite (A o n L). destruct (N.eqb_spec n 0) as [->|]; reflexivity.
  - destruct (B o n L) as [(-> & E)|E]; [left; exact E|right; exact E].
Qed.
Lemma inflates_less z img : inflates z img -> patient z -> fails_more (file_dev img) z.
Proof.
  intros (A & B) P o n. unfold file_dev. destruct (N.eqb_spec n 0) as [->|NZ]; [left; symmetry; apply P|].
  destruct (N.leb_spec (o + n) (len img)) as [L|L]; [left; rewrite (A o n L); reflexivity|right; eexists; reflexivity].
Qed.

Section Soc.
Context (d' d : dev) (F : fails_more d' d) (m : build) (H : list byte -> list byte) (fuel : nat).
Lemma on_device_soc c : (exists v, read_volume d' = Ok v) \/ read_volume d' = read_volume d -> same_or_cut (on_device m H fuel c d') (on_device m H fuel c d).
Proof.
  intros V0. assert (V : read_volume d' = read_volume d).
  { destruct V0 as [[v V0]|V0]; [|exact V0]. destruct (read_volume_weak _ _ F) as [V|V]; [exact V|congruence]. }
  destruct c; cbn [on_device]; rewrite V.
  - apply soc_try; [apply soi_refl|]. intros v. apply soc_try; [apply select_table_soi, F|]. intros t. destruct scan.
    + apply soc_try; [apply scan_dirent_tree_soi, F|]. intros; apply ls_scan_soc, F.
    + apply soc_try; [apply walk_dirent_tree_soi, F|]. intros; apply soc_refl.
  - apply soc_try; [apply soi_refl|]. intros v. apply soc_try; [apply file_tree_soi, F|]. intros; apply soc_refl.
  - apply soc_try; [apply soi_refl|]. intros v. destruct entry as [path|]; [|apply soc_refl].
    destruct (str_eqb path [SLASH]); [apply print_subdir_soc, F|].
    apply soc_try; [apply walk_path_soi, F|]. intros e. apply soc_andthen; [apply soc_refl|].
    destruct (dirent_table _); [|apply soc_refl]. apply soc_say, print_subdir_soc, F.
  - apply soc_try; [apply soi_refl|]. intros v. destruct path as [path|]; [apply md5_path_soc, F|].
    apply soc_try; [apply file_tree_soi, F|]. intros; apply md5_file_tree_soc, F.
  - apply soc_try; [apply soi_refl|]. intros v. apply soc_try; [apply checksum_soi, F|]. intros; apply soc_refl.
Qed.
End Soc.

Lemma zip_volume z img : inflates z img -> read_volume z = read_volume (file_dev img).
Proof.
  intros (A & B). unfold read_volume. destruct (N.leb_spec (SECTOR_SIZE * 32 + 2048) (len img)) as [L|L].
  - rewrite (A _ _ L). unfold file_dev. change (2048 =? 0) with false. cbv iota. rewrite (proj2 (N.leb_le _ _) L). reflexivity.
  - destruct (B _ _ L) as [(E & _)|[e ->]]; [discriminate E|]. unfold file_dev. change (2048 =? 0) with false. cbv iota.
    rewrite (proj2 (N.leb_gt _ _) L). reflexivity.
Qed.
Lemma zero_base d : read_volume (offset_dev d 0) = read_volume d.
Proof. apply rv_ext. intros o n. unfold offset_dev. rewrite N.add_0_r. reflexivity. Qed.
Lemma zero_device img m H fuel c : offset_wrapper_new (file_dev img) = Ok 0 ->
  on_plain m H fuel c img = on_device m H fuel c (offset_dev (file_dev img) 0).
Proof. intros E. unfold on_plain, open_image. rewrite E. reflexivity. Qed.
Lemma off_zero_more d' d : fails_more d' d -> fails_more d' (offset_dev d 0).
Proof. intros F o n. unfold offset_dev. rewrite N.add_0_r. apply F. Qed.
Lemma off_zero_less d' d : fails_more d' d -> fails_more (offset_dev d' 0) d.
Proof. intros F o n. unfold offset_dev. rewrite N.add_0_r. apply F. Qed.

(** The partition is at the beginning. *)
Lemma zip_right m H fuel c z img : inflates z img -> offset_wrapper_new (file_dev img) = Ok 0 ->
  same_or_cut (on_compressed m H fuel c z) (command_of m H fuel c img).
Proof.
  intros I E. rewrite <- plain_command, (zero_device _ _ _ _ _ E). apply on_device_soc; [apply off_zero_more, inflates_more, I|].
  right. rewrite zero_base. apply zip_volume, I.
Qed.
Lemma zip_same m H fuel c z img : inflates z img -> patient z -> offset_wrapper_new (file_dev img) = Ok 0 ->
  (forall e, snd (command_of m H fuel c img) <> Err (IOError e)) -> on_compressed m H fuel c z = command_of m H fuel c img.
Proof.
  intros I P E N. rewrite <- plain_command in *. rewrite (zero_device _ _ _ _ _ E) in *.
  destruct (on_device_soc (offset_dev (file_dev img) 0) z (off_zero_less _ _ (inflates_less _ _ I P)) m H fuel c) as [S|((e & S) & _)].
  - right. rewrite zero_base. symmetry. apply zip_volume, I.
  - symmetry. exact S.
  - exfalso. exact (N e S).
Qed.

(** The partition is not at the beginning, or there is none. *)
Lemma zip_elsewhere m H fuel c z img : inflates z img -> offset_wrapper_new (file_dev img) <> Ok 0 ->
  on_compressed m H fuel c z = ([], Err InvalidVolume).
Proof.
  intros I E. assert (V : read_volume z = Err InvalidVolume).
  { rewrite (zip_volume _ _ I). unfold offset_wrapper_new, XDVD_OFFSETS in E. cbn [probe] in E.
    destruct (rv_two img 0) as [[v V]|V]; [rewrite V in E; destruct E; reflexivity|]. rewrite zero_base in V. exact V. }
  unfold on_compressed. destruct c; cbn [try on_device]; rewrite V; reflexivity.
Qed.

(** A plain file is a reader of itself. *)
Lemma file_inflates img : inflates (file_dev img) img /\ patient (file_dev img).
Proof.
  split; [split|intros o; reflexivity].
  - intros o n L. unfold file_dev. destruct (N.eqb_spec n 0) as [->|]; [reflexivity|]. rewrite (proj2 (N.leb_le _ _) L). reflexivity.
  - intros o n L. unfold file_dev. destruct (N.eqb_spec n 0) as [->|]; [left; split; reflexivity|]. right. rewrite (proj2 (N.leb_gt _ _) L). eexists. reflexivity.
Qed.
Lemma zip_lost m H fuel c img out : offset_wrapper_new (file_dev img) = Ok 0 -> command_of m H fuel c img = (out, Ok tt) -> len img < 100000000 ->
  exists file, command_of m H fuel c file = (out, Ok tt) /\ on_compressed m H fuel c (file_dev file) = ([], Err InvalidVolume).
Proof.
  intros E R L. exists (fill 34078720 x00 ++ img ++ []).
  assert (W : offset_wrapper_new (file_dev (fill 34078720 x00 ++ img ++ [])) = Ok (len (fill 34078720 x00))).
  { rewrite len_fill, app_nil_r. destruct (volume_of_base _ _ E) as [v V]. rewrite zero_base in V.
    unfold offset_wrapper_new, XDVD_OFFSETS. cbn [probe]. assert (Q : len (fill 34078720 x00 ++ img) = 34078720 + len img) by (rewrite len_app, len_fill; reflexivity).
    rewrite (fill_zero 34078720 0) by (rewrite len_fill; lia). rewrite !rv_far by lia. rewrite (rv_after _ img) by apply len_fill. rewrite V. reflexivity. }
  split.
  - rewrite (c126_lemma _ _ _ _ (reads m H fuel c) E W); [exact R|]. rewrite R. discriminate.
  - apply (zip_elsewhere m H fuel c _ (fill 34078720 x00 ++ img ++ [])); [apply file_inflates|]. rewrite W, len_fill. discriminate.
Qed.

(** Images made by this library. *)
Lemma packed_zero m t img : source t -> packs m t img -> offset_wrapper_new (file_dev img) = Ok 0.
Proof.
  intros S P. destruct (packed_opens m t img S P) as (v & V & _). unfold offset_wrapper_new, XDVD_OFFSETS. cbn [probe]. rewrite zero_base, V. reflexivity.
Qed.
Lemma zip_packed m b H t img z name : source t -> packs m t img -> inflates z img -> patient z ->
  exists lines, Permutation lines (map row_line (rows [] t))
    /\ returns (fun fuel => on_compressed b H fuel (Tree name) z)
         (lines ++ [decimal (count_files t) ++ text " files, " ++ decimal (count_bytes t) ++ text " bytes in " ++ name], Ok tt).
Proof.
  intros S P I Z. destruct (c67_lemma img t name (packed_is_image m t img S P)) as (lines & Q & n & R). exists lines. split; [exact Q|].
  exists n. intros fuel L. specialize (R fuel L). cbv beta in R. rewrite (zip_same b H fuel (Tree name) z img I Z (packed_zero m t img S P)); cbn [command_of]; rewrite R; [reflexivity|discriminate].
Qed.
