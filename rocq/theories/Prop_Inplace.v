(** Properties C129-C131: packing onto existing data, and into a partition
    (xdvdfs-core/src/blockdev.rs, write/img.rs). *)
From Verif Require Import M_Base M_Util M_Layout M_Read M_Img M_Dev M_Offset.
From Verif Require Import S_Avl S_Codec S_Table S_Read S_Img S_Inplace.
From Verif Require Import P_Vm.
From Verif Require Import P_Base P_Src P_More P_Inplace.
From Coq Require Import Init.Byte.
Local Open Scope N_scope.

(** C129: packing onto a file that is not empty gives an image of the tree. *)
Theorem c129_holds :
  forall m t fs fuel old evs img evs', source t -> presents fs t -> copies fs t ->
  create_xdvdfs_image fuel m file_wdev fs (old, evs) = ((img, evs'), Ok tt) ->
  image_holds (file_dev img) t /\ len img mod 65536 = 0 /\ len old <= len img.
Proof. exact c129_lemma. Qed.
Print Assumptions c129_holds.
(** Whether packing succeeds does not depend on what was there. *)
Theorem c129_result :
  forall m t fs, source t -> presents fs t -> copies fs t ->
  exists n r, forall fuel old evs, (n <= fuel)%nat -> snd (create_xdvdfs_image fuel m file_wdev fs (old, evs)) = r.
Proof. exact P_Inplace.c129_result. Qed.
Print Assumptions c129_result.
(** Every byte is the one of the image packed alone, or is left as it was. *)
Theorem c129_bytes :
  forall m t fs fuel old evs img evs' img0, source t -> presents fs t -> copies fs t ->
  create_xdvdfs_image fuel m file_wdev fs (old, evs) = ((img, evs'), Ok tt) -> packs m t img0 ->
  forall i, byte_at img i = byte_at img0 i \/ byte_at img i = byte_at old i.
Proof. exact P_Inplace.c129_bytes. Qed.
Print Assumptions c129_bytes.

Definition c129_tree : ftree := FDir [([97], FFile [x78; x79])].
Definition c129_old : list byte := fill 71000 x55.
Notation c129_run := (create_xdvdfs_image 5 Debug file_wdev (std_fs c129_tree) (c129_old, [])).
(** The bytes of "a" lie in sector 34; behind them, and in front of the volume
    descriptor, the file is as it was. *)
Example c129_example :
  source c129_tree /\ snd c129_run = Ok tt /\ len (fst (fst c129_run)) = 131072
  /\ slice (fst (fst c129_run)) 69632 3 = [x78; x79; x55] /\ byte_at (fst (fst c129_run)) 65535 = x55 /\ byte_at (fst (fst c129_run)) 71000 = x00.
Proof. split; [apply source_b_ok; vm_compute; reflexivity|]. vm_all. Qed.

(** C130, partial: packing through a wrapper leaves everything in front of the
    partition alone and gives an image of the tree in the partition. Missing: the
    length. *)
Theorem c130_holds_partial :
  forall m t base fs fuel old evs img evs', base <= len old -> source t -> presents fs t -> copies_at base fs t ->
  create_xdvdfs_image fuel m (offset_wdev file_wdev base) fs (old, evs) = ((img, evs'), Ok tt) ->
  image_holds (offset_dev (file_dev img) base) t /\ (forall i, i < base -> byte_at img i = byte_at old i) /\ len old <= len img.
Proof. exact c130_lemma. Qed.
Print Assumptions c130_holds_partial.
Theorem c130_result :
  forall m t base fs0 fs, source t -> presents fs0 t -> copies fs0 t -> presents fs t -> copies_at base fs t ->
  exists n, forall fuel old evs, (n <= fuel)%nat ->
    snd (create_xdvdfs_image fuel m (offset_wdev file_wdev base) fs (old, evs)) = snd (create_xdvdfs_image fuel m file_wdev fs0 ([], [])).
Proof. exact P_Inplace.c130_result. Qed.
Print Assumptions c130_result.
(** The default copier works through a wrapper. *)
Theorem c130_copier :
  forall D base src (W : wdev D) off_in off_out size dest,
  rw_copy src (offset_wdev W base) off_in off_out size dest = rw_copy src W off_in (off_out + base) size dest.
Proof. exact @copy_shift. Qed.
Print Assumptions c130_copier.
(** The length, when the new image is not longer than what was there: the padding is
    put [base] bytes too far. *)
Theorem c130_length_partial :
  forall m t base fs fuel old evs img evs' img0, source t -> presents fs t -> copies_at base fs t -> packs m t img0 -> base + len img0 <= len old ->
  create_xdvdfs_image fuel m (offset_wdev file_wdev base) fs (old, evs) = ((img, evs'), Ok tt) ->
  len img = if len old mod 65536 =? 0 then len old else len old + base + (65536 - len old mod 65536).
Proof. exact c130_length. Qed.
Print Assumptions c130_length_partial.

Notation c129_packed := (fst (fst (create_xdvdfs_image 5 Debug file_wdev (std_fs c129_tree) ([], [])))).
(** Finding: packing a tree again in the place of its image makes the file larger by
    34078720 bytes and 65535 bytes of padding. *)
Theorem c130_length_refuted :
  exists t old img0 fs fuel img evs, offset_wrapper_new (file_dev old) = Ok 34078720 /\ source t /\ packs Debug t img0 /\ 34078720 + len img0 < len old
  /\ presents fs t /\ copies_at 34078720 fs t
  /\ create_xdvdfs_image fuel Debug (offset_wdev file_wdev 34078720) fs (old, []) = ((img, evs), Ok tt)
  /\ len img = len old + 34078720 + 65535.
Proof.
  assert (S : source c129_tree) by (apply source_b_ok; vm_compute; reflexivity).
  assert (P : packs Debug c129_tree c129_packed) by (apply std_packs; [exact S|vm_compute; reflexivity]).
  assert (L : len c129_packed = 131072) by (vm_compute; reflexivity).
  destruct (grows Debug c129_tree c129_packed S P) as (old & fs & fuel & img & evs & H1 & H2 & H3 & H4 & H5 & H6); [rewrite L; reflexivity|].
  exists c129_tree, old, c129_packed, fs, fuel, img, evs. ssplit; try assumption. rewrite H2. apply N.lt_add_pos_r. reflexivity.
Qed.
Print Assumptions c130_length_refuted.
Notation c130_run := (create_xdvdfs_image 5 Debug (offset_wdev file_wdev 4096) (shifted 4096 (std_fs c129_tree)) (fill 4096 x41, [])).
Example c130_example :
  snd c130_run = Ok tt /\ len (fst (fst c130_run)) = 4096 + 69634 + 4096 + 57342
  /\ read_volume (offset_dev (file_dev (fst (fst c130_run))) 4096) = read_volume (file_dev c129_packed)
  /\ slice (fst (fst c130_run)) (4096 + 69632) 3 = [x78; x79; x00] /\ byte_at (fst (fst c130_run)) 4095 = x41.
Proof. vm_all. Qed.

(** C131, partial: seeking to a position counted from the start of the partition, and
    reading there. Missing: the position that is returned. *)
Theorem c131_start_partial :
  forall base len pos n file, offset_seek base len pos (SeekStart n) = Ok (base + n)
  /\ forall k, offset_dev (file_dev file) base n k = file_dev file (base + n) k.
Proof. exact c131_start. Qed.
Print Assumptions c131_start_partial.
(** The position that is returned counts from the start of the file, so going back to
    it leads [base] bytes too far. *)
Theorem c131_position_partial :
  forall base len pos, base <= pos ->
  offset_seek base len pos (SeekCurrent 0) = Ok pos /\ offset_seek base len pos (SeekStart pos) = Ok (base + pos).
Proof. exact c131_lemma. Qed.
Print Assumptions c131_position_partial.
Theorem c131_refuted :
  exists base len pos p q, In base XDVD_OFFSETS /\ base <= pos /\ offset_seek base len pos (SeekCurrent 0) = Ok p /\ offset_seek base len pos (SeekStart p) = Ok q /\ q <> pos.
Proof. exists 34078720, 50000000, 40000000, 40000000, 74078720. vm_compute. ssplit; try reflexivity; try discriminate; auto. Qed.
Print Assumptions c131_refuted.
Example c131_example :
  offset_seek 2048 9000 0 (SeekStart 10) = Ok 2058 /\ offset_seek 2048 9000 2058 (SeekCurrent (-8)) = Ok 2050
  /\ offset_seek 2048 9000 2058 (SeekEnd (-1000)) = Ok 8000 /\ offset_seek 2048 9000 2058 (SeekCurrent (-2059)) = Err (IoOther 22).
Proof. vm_all. Qed.
