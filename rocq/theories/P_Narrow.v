(** Proofs about 32-bit platforms (C156). *)
From Verif Require Import M_Base M_Util M_Layout M_Read M_Check M_Cli M_Narrow S_Read S_Check.
From Verif Require Import P_Base P_Mono P_Witness.
From Coq Require Import Init.Byte Lia.
Local Open Scope N_scope.

Lemma mem_ok img o n b : mem_dev img o n = Ok b -> o < len img /\ o + n <= len img.
Proof.
  unfold mem_dev. destruct (N.leb_spec (len img) o); [discriminate|]. destruct (N.min (len img - o) n =? n) eqn:E; [|discriminate]. apply N.eqb_eq in E. intros _. lia.
Qed.
Lemma c156_same img o n : o < 4294967296 -> mem_dev32 img o n = mem_dev img o n.
Proof. intros H. unfold mem_dev32, narrow. rewrite N.mod_small by exact H. reflexivity. Qed.
Lemma mem_narrow img : len img < 2147483648 -> dle (mem_dev img) (mem_dev32 img).
Proof. intros HL o n b H. destruct (mem_ok _ _ _ _ H). rewrite c156_same by lia. exact H. Qed.

Section More.
Variables d d' : dev.
Hypothesis HD : dle d d'.
Lemma read_data_all_mono x b : read_data_all d x = Ok b -> read_data_all d' x = Ok b.
Proof.
  unfold read_data_all. destruct (r_size (d_region x) =? 0); auto. destruct (region_offset (d_region x) 0) as [o| | |]; try discriminate. cbn [bind]. apply io_mono. exact HD.
Qed.
Lemma find_loop_mono r name fuel : forall fuel' o e, (fuel <= fuel')%nat -> find_loop fuel d r name o = Ok e -> find_loop fuel' d' r name o = Ok e.
Proof.
  induction fuel as [|fuel IH]; intros fuel' o e Hf H; [discriminate|]. destruct fuel' as [|fuel']; [lia|]. cbn [find_loop] in *.
  destruct (read_dirent d o) as [x| | |] eqn:E; try discriminate. rewrite (read_dirent_mono _ _ HD _ _ E). cbn [bind] in *. destruct (ok_or x DoesNotExist) as [y| | |]; try discriminate. cbn [bind] in *.
  destruct (cmp_ignore_case_utf8 name (name_str y)); [exact H| |];
  match goal with |- (if ?c then _ else _) = _ => destruct c; [exact H|] end;
  match goal with |- (let* _ := ?c in _) = _ => destruct c as [o'| | |]; try discriminate end; cbn [bind] in *; (apply IH; [lia|exact H]).
Qed.
Lemma find_dirent_mono fuel fuel' r name e : (fuel <= fuel')%nat -> find_dirent fuel d r name = Ok e -> find_dirent fuel' d' r name = Ok e.
Proof.
  intros Hf. unfold find_dirent. destruct (region_is_empty r); [discriminate|]. destruct (region_offset r 0) as [o| | |]; try discriminate. cbn [bind]. apply find_loop_mono. exact Hf.
Qed.
Lemma walk_segments_mono fuel fuel' segs : (fuel <= fuel')%nat -> forall r e, walk_segments fuel d r segs = Ok e -> walk_segments fuel' d' r segs = Ok e.
Proof.
  intros Hf. induction segs as [|s segs IH]; intros r e H; [discriminate|]. cbn [walk_segments] in *. destruct (find_dirent fuel d r s) as [x| | |] eqn:E; try discriminate.
  rewrite (find_dirent_mono _ _ _ _ _ Hf E). cbn [bind] in *. destruct segs as [|s' segs]; [exact H|]. destruct (ok_or (dirent_table (d_dirent (e_node x))) IsNotDirectory) as [t| | |]; try discriminate. cbn [bind] in *. apply IH. exact H.
Qed.
Lemma walk_path_mono fuel fuel' r p e : (fuel <= fuel')%nat -> walk_path fuel d r p = Ok e -> walk_path fuel' d' r p = Ok e.
Proof. intros Hf. unfold walk_path. destruct p as [|c p]; auto. destruct (str_eqb (c :: p) [SLASH]); auto. apply walk_segments_mono. exact Hf. Qed.
Lemma next_sector_mono s s' : next_sector d s = Ok s' -> next_sector d' s = Ok s'.
Proof.
  unfold next_sector. destruct (s_end s <=? s_sector s + 1); auto. destruct (io (d ((s_sector s + 1) * SECTOR_SIZE) 2048)) as [b| | |] eqn:E; try discriminate. rewrite (io_mono _ _ HD _ _ _ E). auto.
Qed.
Lemma next_loop_mono fuel : forall fuel' s x, (fuel <= fuel')%nat -> next_loop fuel d s = Ok x -> next_loop fuel' d' s = Ok x.
Proof.
  induction fuel as [|fuel IH]; intros fuel' s x Hf H; [discriminate|]. destruct fuel' as [|fuel']; [lia|]. cbn [next_loop] in *.
  destruct (rassert (s_offset s + 14 <? SECTOR_SIZE)) as [u| | |]; try discriminate. cbn [bind] in *.
  destruct (deserialize_dirent_node (slice (s_buf s) (s_offset s) 14) (s_offset s)) as [e|].
  - destruct (rassert (s_offset s + 14 + d_namelen (d_dirent (e_node e)) <=? SECTOR_SIZE)) as [u'| | |]; try discriminate. cbn [bind] in *.
    match goal with |- context [if ?c then next_sector d' _ else _] => destruct c; [|exact H] end.
    match goal with H : context [next_sector d ?s] |- _ => destruct (next_sector d s) as [s1| | |] eqn:E; try discriminate; rewrite (next_sector_mono _ _ E) end. exact H.
  - destruct (s_sector s + 1 <? s_end s); [|exact H]. destruct (next_sector d s) as [s1| | |] eqn:E; try discriminate. rewrite (next_sector_mono _ _ E). cbn [bind] in *. apply IH; [lia|exact H].
Qed.
Lemma next_entry_mono fuel fuel' s x : (fuel <= fuel')%nat -> next_entry fuel d s = Ok x -> next_entry fuel' d' s = Ok x.
Proof. intros Hf. unfold next_entry. destruct (s_end s <=? s_sector s); auto. apply next_loop_mono. exact Hf. Qed.
Lemma collect_mono fuel : forall s x, collect_scan fuel d s = Ok x -> collect_scan fuel d' s = Ok x.
Proof.
  induction fuel as [|fuel IH]; intros s x H; [discriminate|]. cbn [collect_scan] in *. destruct (next_entry (S fuel) d s) as [[o s']| | |] eqn:E; try discriminate.
  rewrite (next_entry_mono _ _ _ _ (le_n _) E). cbn [bind] in *. destruct o as [e|]; [|exact H]. destruct (collect_scan fuel d s') as [es| | |] eqn:E'; try discriminate. rewrite (IH _ _ E'). exact H.
Qed.
End More.

Section Mem.
Variable img : list byte.
Hypothesis HL : len img < 2147483648.
Notation d := (mem_dev img).
Notation d32 := (mem_dev32 img).

Lemma all_narrow x b : read_data_all d x = Ok b -> read_data_all32 d32 x = Ok b.
Proof.
  intros H. unfold read_data_all32. destruct (N.ltb_spec (r_size (d_region x)) 2147483648) as [Hs|Hs]; [apply (read_data_all_mono d); [apply mem_narrow; exact HL|exact H]|].
  exfalso. unfold read_data_all in H. destruct (N.eqb_spec (r_size (d_region x)) 0); [lia|]. destruct (region_offset (d_region x) 0) as [o| | |]; try discriminate. cbn [bind] in H. unfold io, map_err in H.
  destruct (d o (r_size (d_region x))) as [b'| | |] eqn:E; try discriminate. destruct (mem_ok _ _ _ _ E). lia.
Qed.
Lemma scan_narrow m r s : r_size r < 4294967296 -> scan_dirent_tree d r = Ok s -> scan_dirent_tree32 m d32 r = Ok s.
Proof.
  intros Hr H. unfold scan_dirent_tree, scan_dirent_tree32 in *. destruct (region_is_empty r); [exact H|]. destruct (region_offset r 0) as [o| | |] eqn:Eo; try discriminate. cbn [bind] in *.
  destruct (io (d o 2048)) as [b| | |] eqn:E; try discriminate. rewrite (io_mono _ _ (mem_narrow img HL) _ _ _ E). cbn [bind] in *.
  unfold narrow_add. destruct (N.ltb_spec (r_sector r + (r_size r + 2047) / 2048) 4294967296) as [Hs|Hs]; [exact H|]. exfalso.
  unfold io, map_err in E. destruct (d o 2048) as [b'| | |] eqn:E'; try discriminate. destruct (mem_ok _ _ _ _ E') as (Ho & _).
  unfold region_offset in Eo. destruct (r_size r <=? 0); [discriminate|]. injection Eo as <-.
  assert ((r_size r + 2047) / 2048 <= 2097153) by (apply N.div_le_upper_bound; lia). unfold SECTOR_SIZE in *. lia.
Qed.
Lemma fold_narrow l : forall h x, foldM (checksum_step d) h l = Ok x -> foldM (checksum_step32 d32) h l = Ok x.
Proof.
  induction l as [|y l IH]; intros h x H; cbn [foldM] in *; [exact H|]. destruct (checksum_step d h y) as [h'| | |] eqn:E; try discriminate. cbn [bind] in H.
  assert (E' : checksum_step32 d32 h y = Ok h').
  { unfold checksum_step, checksum_step32 in *. destruct (is_directory (d_dirent (e_node (snd y)))); [exact E|]. destruct (read_data_all d (d_dirent (e_node (snd y)))) as [b| | |] eqn:Eb; try discriminate. rewrite (all_narrow _ _ Eb). exact E. }
  rewrite E'. cbn [bind]. apply IH. exact H.
Qed.
End Mem.

Lemma c156_reads img : len img < 2147483648 ->
  (forall v, read_volume (mem_dev img) = Ok v -> read_volume (mem_dev32 img) = Ok v)
  /\ (forall fuel r p e, walk_path fuel (mem_dev img) r p = Ok e -> walk_path fuel (mem_dev32 img) r p = Ok e)
  /\ (forall fuel r l, walk_dirent_tree fuel (mem_dev img) r = Ok l -> walk_dirent_tree fuel (mem_dev32 img) r = Ok l)
  /\ (forall fuel r l, file_tree fuel (mem_dev img) r = Ok l -> file_tree fuel (mem_dev32 img) r = Ok l)
  /\ (forall m fuel r l, r_size r < 4294967296 -> scan_all fuel (mem_dev img) r = Ok l -> scan_all32 m fuel (mem_dev32 img) r = Ok l)
  /\ (forall x b, read_data_all (mem_dev img) x = Ok b -> read_data_all32 (mem_dev32 img) x = Ok b)
  /\ (forall H fuel v h, checksum H fuel (mem_dev img) v = Ok h -> checksum32 H fuel (mem_dev32 img) v = Ok h).
Proof.
  intros HL. pose proof (mem_narrow img HL) as HD. ssplit.
  - apply read_volume_mono. exact HD.
  - intros fuel r p e. apply walk_path_mono; [exact HD|auto].
  - intros fuel r l. apply walk_dirent_tree_mono; [exact HD|auto].
  - intros fuel r l. apply file_tree_mono; [exact HD|auto].
  - intros m fuel r l Hr H. unfold scan_all, scan_all32 in *. destruct (scan_dirent_tree (mem_dev img) r) as [s| | |] eqn:E; try discriminate. rewrite (scan_narrow img HL m r s Hr E). cbn [bind] in *. eapply collect_mono; eauto.
  - apply all_narrow. exact HL.
  - intros H fuel v h. unfold checksum, checksum32. destruct (file_tree fuel (mem_dev img) (v_root v)) as [t| | |] eqn:E; try discriminate. rewrite (file_tree_mono _ _ HD fuel fuel _ _ (le_n _) E). cbn [bind].
    destruct (foldM (checksum_step (mem_dev img)) [] (checksum_map t)) as [x| | |] eqn:Ef; try discriminate. rewrite (fold_narrow img HL _ _ _ Ef). auto.
Qed.

Lemma fold_add_shift l : forall a, fold_left N.add l a = a + fold_left N.add l 0.
Proof. induction l as [|x l IH]; intros a; cbn [fold_left]; [lia|]. rewrite IH, (IH (0 + x)). lia. Qed.
Lemma total_release tree : total32 Release tree = Ok ((fold_left N.add (map tree_size tree) 0) mod 4294967296).
Proof.
  unfold total32. assert (G : forall l a, a < 4294967296 -> foldM (fun n x => narrow_add Release n (tree_size x)) a l = Ok (E:=rerr) ((fold_left N.add (map tree_size l) a) mod 4294967296)).
  { induction l as [|x l IH]; intros a Ha; cbn [foldM map fold_left]; [rewrite N.mod_small by exact Ha; reflexivity|].
    unfold narrow_add. destruct (N.ltb_spec (a + tree_size x) 4294967296) as [Hs|Hs]; cbn [bind]; [apply IH; exact Hs|].
    rewrite IH by (apply N.mod_lt; lia). f_equal. rewrite (fold_add_shift _ (narrow _)), (fold_add_shift _ (a + tree_size x)). unfold narrow. rewrite N.add_mod_idemp_l by lia. reflexivity. }
  apply G. lia.
Qed.
Lemma total_debug tree : fold_left N.add (map tree_size tree) 0 < 4294967296 -> total32 Debug tree = Ok (fold_left N.add (map tree_size tree) 0).
Proof.
  unfold total32. generalize 0 at 1 2 3 as a. induction tree as [|x l IH]; intros a Ha; cbn [foldM map fold_left] in *; [reflexivity|].
  assert (Hs : a + tree_size x < 4294967296) by (rewrite fold_add_shift in Ha; lia). unfold narrow_add. rewrite (proj2 (N.ltb_lt _ _) Hs). cbn [bind]. apply IH. exact Ha.
Qed.
Lemma total_debug_panic tree : 4294967296 <= fold_left N.add (map tree_size tree) 0 -> total32 Debug tree = Panic POverflow.
Proof.
  unfold total32. assert (G : forall l a, a < 4294967296 -> 4294967296 <= fold_left N.add (map tree_size l) a -> foldM (fun n x => narrow_add Debug n (tree_size x)) a l = Panic (E:=rerr) POverflow).
  { induction l as [|x l IH]; intros a Ha H; cbn [foldM map fold_left] in *; [lia|]. unfold narrow_add. destruct (N.ltb_spec (a + tree_size x) 4294967296) as [Hs|Hs]; cbn [bind]; [apply IH; auto|reflexivity]. }
  apply G. lia.
Qed.
