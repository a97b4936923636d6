(** Concrete images used as witnesses and examples. *)
From Verif Require Import M_Base M_Util M_Layout M_Read S_Avl S_Codec S_Read P_Base P_Layout P_Codec P_Path P_Read P_Find P_Term.
From Coq Require Import Init.Byte Sorted Permutation.
Local Open Scope N_scope.

Lemma file_lawful img : lawful (file_dev img).
Proof.
  intros o n bs. unfold file_dev. destruct (N.eqb_spec n 0) as [->|]; [intros H; injection H as <-; reflexivity|].
  destruct (N.leb_spec (o + n) (len img)); [|discriminate]. intros H'; injection H' as <-. apply slice_len. auto.
Qed.
Lemma file_calm img : calm (file_dev img).
Proof.
  intros o n. unfold file_dev. destruct (n =? 0); eauto. destruct (_ <=? _); eauto.
Qed.
Lemma file_real img : real (file_dev img).
Proof. intros o n. unfold file_dev. destruct (n =? 0); [discriminate|]. destruct (_ <=? _); discriminate. Qed.
Lemma mem_lawful img : lawful (mem_dev img).
Proof.
  intros o n bs. unfold mem_dev. destruct (N.leb_spec (len img) o); [discriminate|].
  destruct (N.eqb_spec (N.min (len img - o) n) n); [|discriminate]. intros H'; injection H' as <-. apply slice_len. lia.
Qed.
Lemma mem_real img : real (mem_dev img).
Proof. intros o n. unfold mem_dev. destruct (_ <=? _); [discriminate|]. destruct (_ =? _); discriminate. Qed.

(** One record and its padding to a multiple of four. *)
Definition record (l r sector size attrs : N) (name : list byte) : list byte :=
  dnode_ser (mkDnode l r (mkDdata (mkRegion sector size) attrs (len name))) ++ name
  ++ fill ((4 - (14 + len name) mod 4) mod 4) xff.

(** An image with the given root table (at most one sector) and data behind it. *)
Definition image_of (table rest : list byte) : list byte :=
  fill 65536 x00 ++ volume_ser (volume_new (mkRegion 33 2048))
  ++ table ++ fill (2048 - len table) xff ++ rest.

Definition root33 : region := mkRegion 33 2048.

(** The second entry is its own left child. *)
Definition loop_img : list byte :=
  image_of (record 4 0 40 1 32 [x42] ++ record 4 0 40 1 32 [x43]) [].

(** A directory that is its own subdirectory. *)
Definition nest_img : list byte := image_of (record 0 0 33 2048 16 [x61]) [].

(** Records of names of 255 bytes; the eighth would cross the end of the sector. *)
Definition cross_img : list byte :=
  image_of (firstn 2048 (concat (repeat (record 0 0 40 1 32 (repeat x61 255)) 8))) [].

Lemma find_loop_again d r name off fuel : 
  match read_dirent d off with
  | Ok (Some e) => cmp_ignore_case_utf8 name (name_str e) = Lt /\ d_left (e_node e) <> 0
      /\ region_offset r (4 * d_left (e_node e)) = Ok off
  | _ => False
  end -> find_loop fuel d r name off = OutOfFuel.
Proof.
  intros H. induction fuel as [|fuel IH]; [reflexivity|]. cbn [find_loop].
  destruct (read_dirent d off) as [[e|]| | |]; try contradiction. destruct H as (H1 & H2 & H3). cbn [ok_or bind].
  rewrite H1. destruct (N.eqb_spec (d_left (e_node e)) 0); [congruence|]. rewrite H3. cbn [bind]. exact IH.
Qed.

Lemma loop_second :
  match read_dirent (file_dev loop_img) 67600 with
  | Ok (Some e) => cmp_ignore_case_utf8 [65] (name_str e) = Lt /\ d_left (e_node e) <> 0
      /\ region_offset root33 (4 * d_left (e_node e)) = Ok 67600
  | _ => False
  end.
Proof. vm_compute. split; [reflexivity|split; [discriminate|reflexivity]]. Qed.

Lemma loop_first :
  match read_dirent (file_dev loop_img) 67584 with
  | Ok (Some e) => cmp_ignore_case_utf8 [65] (name_str e) = Lt /\ d_left (e_node e) <> 0
      /\ region_offset root33 (4 * d_left (e_node e)) = Ok 67600
  | _ => False
  end.
Proof. vm_compute. split; [reflexivity|split; [discriminate|reflexivity]]. Qed.

Lemma loop_lookup : diverges (fun fuel => walk_path fuel (file_dev loop_img) root33 [65]).
Proof.
  intros fuel. unfold walk_path. change (str_eqb [65] [SLASH]) with false. cbn iota.
  change (split_terminator (trim_start [65])) with [[65]]. cbn [walk_segments].
  unfold find_dirent. change (region_is_empty root33) with false. cbn iota.
  change (region_offset root33 0) with (@Ok rerr N 67584). cbn [bind].
  destruct fuel as [|fuel]; [reflexivity|]. cbn [find_loop]. pose proof loop_first as H.
  destruct (read_dirent (file_dev loop_img) 67584) as [[e|]| | |]; try contradiction.
  destruct H as (H1 & H2 & H3). cbn [ok_or bind]. rewrite H1. destruct (N.eqb_spec (d_left (e_node e)) 0); [congruence|].
  rewrite H3. cbn [bind]. rewrite find_loop_again; [reflexivity|]. apply loop_second.
Qed.

Lemma walk_loop_again d r off : forall fuel st acc,
  match region_offset r off with
  | Ok o => match read_dirent d o with
            | Ok (Some e) => d_left (e_node e) <> 0 /\ d_left (e_node e) <> 65535 /\ 4 * d_left (e_node e) = off /\ d_right (e_node e) = 0
            | _ => False
            end
  | _ => False
  end -> walk_loop fuel d r (off :: st) acc = OutOfFuel.
Proof.
  induction fuel as [|fuel IH]; intros st acc H; [reflexivity|]. cbn [walk_loop].
  assert (H0 := H). destruct (region_offset r off) as [o| | |]; try contradiction. cbn [bind].
  destruct (read_dirent d o) as [[e|]| | |]; try contradiction. cbn [bind]. destruct H as (H1 & H2 & H3 & H4).
  destruct (N.eqb_spec (d_left (e_node e)) 0); [congruence|]. destruct (N.eqb_spec (d_left (e_node e)) 65535); [congruence|].
  cbn [negb andb]. rewrite H4. change (negb (0 =? 0)) with false. cbn [andb]. rewrite H3. apply IH. exact H0.
Qed.

Lemma loop_walk : diverges (fun fuel => walk_dirent_tree fuel (file_dev loop_img) root33).
Proof.
  intros fuel. unfold walk_dirent_tree. change (region_is_empty root33) with false. cbn iota.
  destruct fuel as [|fuel]; [reflexivity|]. cbn [walk_loop]. 
  assert (H : match region_offset root33 0 with
    | Ok o => match read_dirent (file_dev loop_img) o with
              | Ok (Some e) => d_left (e_node e) <> 0 /\ d_left (e_node e) <> 65535 /\ 4 * d_left (e_node e) = 16 /\ d_right (e_node e) = 0
              | _ => False end
    | _ => False end).
  { vm_compute. split; [discriminate|split; [discriminate|split; reflexivity]]. }
  destruct (region_offset root33 0) as [o| | |]; try contradiction. cbn [bind].
  destruct (read_dirent (file_dev loop_img) o) as [[e|]| | |]; try contradiction. cbn [bind]. destruct H as (H1 & H2 & H3 & H4).
  destruct (N.eqb_spec (d_left (e_node e)) 0); [congruence|]. destruct (N.eqb_spec (d_left (e_node e)) 65535); [congruence|].
  cbn [negb andb]. rewrite H4. change (negb (0 =? 0)) with false. cbn [andb]. rewrite H3. apply walk_loop_again.
  vm_compute. split; [discriminate|split; [discriminate|split; reflexivity]].
Qed.

Lemma nest_children fuel :
  match walk_dirent_tree (S fuel) (file_dev nest_img) root33 with
  | Ok [e] => dirent_table (d_dirent (e_node e)) = Some root33
  | _ => False
  end.
Proof.
  unfold walk_dirent_tree. change (region_is_empty root33) with false. cbn iota. cbn [walk_loop].
  assert (H : match region_offset root33 0 with
    | Ok o => match read_dirent (file_dev nest_img) o with
              | Ok (Some e) => d_left (e_node e) = 0 /\ d_right (e_node e) = 0 /\ dirent_table (d_dirent (e_node e)) = Some root33
              | _ => False end
    | _ => False end).
  { vm_compute. split; [|split]; reflexivity. }
  destruct (region_offset root33 0) as [o| | |]; try contradiction. cbn [bind].
  destruct (read_dirent (file_dev nest_img) o) as [[e|]| | |]; try contradiction. cbn [bind]. destruct H as (-> & -> & H).
  change (negb (0 =? 0)) with false. cbn [andb]. destruct fuel; cbn; exact H.
Qed.

Lemma nest_file_tree : diverges (fun fuel => file_tree fuel (file_dev nest_img) root33).
Proof.
  intros fuel. unfold file_tree. generalize (@nil N) at 1 as p. generalize (@nil (str * dentry)).
  induction fuel as [|fuel IH]; intros out p; [reflexivity|]. cbn [file_tree_loop].
  destruct fuel as [|fuel]; [reflexivity|].
  pose proof (nest_children fuel) as H. destruct (walk_dirent_tree (S fuel) (file_dev nest_img) root33) as [[|e [|]]| | |]; try contradiction.
  cbn [bind]. unfold push_dirs. cbn [fold_left]. rewrite H. apply IH.
Qed.

Lemma loop_volume : exists v, read_volume (file_dev loop_img) = Ok v /\ v_root v = root33.
Proof. eexists. split; vm_compute; reflexivity. Qed.
Lemma nest_volume : exists v, read_volume (file_dev nest_img) = Ok v /\ v_root v = root33.
Proof. eexists. split; vm_compute; reflexivity. Qed.

Lemma cross_panics :
  exists v, read_volume (file_dev cross_img) = Ok v /\ v_root v = root33
  /\ scan_all 10 (file_dev cross_img) root33 = Panic PAssert
  /\ match walk_dirent_tree 10 (file_dev cross_img) root33 with Ok [e] => True | _ => False end.
Proof. eexists. ssplit; [vm_compute; reflexivity|vm_compute; reflexivity|vm_compute; reflexivity|vm_compute; exact I]. Qed.

Lemma collect_panic_mono d p : forall fuel s fuel',
  collect_scan fuel d s = Panic p -> (fuel <= fuel')%nat -> collect_scan fuel' d s = Panic p.
Proof.
  assert (HN : forall fuel s x, next_loop fuel d s = x -> x <> OutOfFuel -> forall fuel', (fuel <= fuel')%nat -> next_loop fuel' d s = x).
  { induction fuel as [|fuel IH]; intros s x H Hx fuel' Hf; [cbn in H; congruence|]. destruct fuel' as [|fuel']; [lia|].
    cbn [next_loop] in *. destruct (s_offset s + 14 <? SECTOR_SIZE); cbn [rassert bind] in *; auto.
    destruct (deserialize_dirent_node _ _); auto. destruct (s_sector s + 1 <? s_end s); auto.
    destruct (next_sector d s); cbn [bind] in *; auto. apply IH; auto. lia. }
  induction fuel as [|fuel IH]; intros s fuel' H Hf; [discriminate|]. destruct fuel' as [|fuel']; [lia|].
  cbn [collect_scan] in *. unfold next_entry in *. destruct (s_end s <=? s_sector s); [discriminate|].
  destruct (next_loop (S fuel) d s) as [[[e|] s']|e|q|] eqn:E; cbn [bind] in H; try discriminate.
  - rewrite (HN _ _ _ E) by (try discriminate; lia). cbn [bind].
    destruct (collect_scan fuel d s') eqn:E1; cbn in H; try discriminate. injection H as ->. rewrite (IH _ _ E1) by lia. reflexivity.
  - rewrite (HN _ _ _ E) by (try discriminate; lia). exact H.
Qed.

Lemma scan_panic_mono d r p fuel fuel' :
  scan_all fuel d r = Panic p -> (fuel <= fuel')%nat -> scan_all fuel' d r = Panic p.
Proof.
  unfold scan_all. destruct (scan_dirent_tree d r) as [s| | |]; cbn [bind]; auto. intros H Hf. eapply collect_panic_mono; eauto.
Qed.

Lemma c33_refuted_lemma : exists img v, read_volume (file_dev img) = Ok v
  /\ returns (fun fuel => scan_all fuel (file_dev img) (v_root v)) (Panic PAssert).
Proof.
  destruct cross_panics as (v & H1 & H2 & H3 & _). exists cross_img, v. split; [exact H1|]. rewrite H2. exists 10%nat. intros fuel Hf.
  exact (scan_panic_mono _ _ _ _ _ H3 Hf).
Qed.

(** An image whose partition is at the third offset, as a device. *)
Definition c26_dev : dev := fun o n => if o <? 265879552 then Err (IoOther 5) else file_dev loop_img (o - 265879552) n.
Definition c27_img : list byte := fill 2048 x00 ++ [x01; x02; x03; x04].
Definition c31_img : list byte :=
  image_of (record 5 0 40 7 32 [x62; x62] ++ [xff; xff; xff; xff] ++ record 0 0 41 0 32 [x41]) [].
Definition c31_entry (o : N) : dentry :=
  match read_dirent (file_dev c31_img) o with Ok (Some e) => e | _ => mkDentry (mkDnode 0 0 (mkDdata root33 0 0)) [] 0 end.
Lemma c31_entries : read_dirent (file_dev c31_img) 67584 = Ok (Some (c31_entry 67584))
  /\ read_dirent (file_dev c31_img) 67604 = Ok (Some (c31_entry 67604)).
Proof. split; vm_compute; reflexivity. Qed.
Lemma c28_refuted_lemma :
  exists img x size offset bs,
  2048 * r_sector (d_region x) + r_size (d_region x) <= len img
  /\ offset < r_size (d_region x)
  /\ read_data_offset (file_dev img) x size offset = Ok bs
  /\ len bs > r_size (d_region x) - offset
  /\ nth_error bs 1 = Some x04.
Proof.
  exists (fill 2048 x00 ++ [x01; x02; x03; x04; x05; x06]), (mkDdata (mkRegion 1 3) 32 0), 3, 2, [x03; x04; x05].
  vm_compute. ssplit; [discriminate|reflexivity|reflexivity|reflexivity|reflexivity].
Qed.

Lemma c29_refuted_lemma :
  exists path, Forall (fun c => c = 47) path /\ forall fuel d r, walk_path fuel d r path = Panic PUnreachable.
Proof. exists [47; 47]. split; [repeat constructor|reflexivity]. Qed.

Lemma c32_refuted_lemma :
  exists img v path, read_volume (file_dev img) = Ok v
  /\ diverges (fun fuel => walk_path fuel (file_dev img) (v_root v) path)
  /\ diverges (fun fuel => walk_dirent_tree fuel (file_dev img) (v_root v)).
Proof.
  destruct loop_volume as (v & H1 & H2). exists loop_img, v, [65]. rewrite H2.
  exact (conj H1 (conj loop_lookup loop_walk)).
Qed.

Lemma c32_listing_refuted_lemma :
  exists img v, read_volume (file_dev img) = Ok v /\ diverges (fun fuel => file_tree fuel (file_dev img) (v_root v)).
Proof. destruct nest_volume as (v & H1 & H2). exists nest_img, v. rewrite H2. exact (conj H1 nest_file_tree). Qed.

