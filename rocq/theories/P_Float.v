(** Proofs of C161. *)
From Verif Require Import M_Base M_Util M_Layout M_Avl M_Sector M_Dirtab M_Read M_Img M_Dev M_Trie M_Xfs M_Lin M_Check M_Cli M_Unpack M_Host M_Web M_Float.
From Verif Require Import S_Avl S_Codec S_Read S_Img S_Check S_Float.
From Verif Require Import P_Base P_Layout P_Read P_Witness P_Bytes P_Xfs.
From Coq Require Import Init.Byte Lia.
Local Open Scope N_scope.

Definition K : N := 17592186044416.

(** ** Positions that are read *)
Lemma slice_short {A} (l : list A) k n : len (slice l k n) <= n.
Proof. rewrite P_Bytes.slice_len. lia. Qed.
Lemma unle_lt l n : len l <= n -> unle l < 256 ^ n.
Proof. intros H. pose proof (unle_bound l). assert (256 ^ len l <= 256 ^ n) by (apply N.pow_le_mono_r; lia). lia. Qed.
Lemma region_de_u32 b : u32_region (region_de b).
Proof. split; cbn [region_de r_sector r_size]; apply (unle_lt _ 4), slice_short. Qed.
Lemma namelen_255 b : d_namelen (d_dirent (dnode_de b)) < 256.
Proof. cbn [dnode_de d_dirent d_namelen]. apply (unle_lt _ 1), slice_short. Qed.
Lemma de_u32 b o e : deserialize_dirent_node b o = Some e -> u32_region (d_region (d_dirent (e_node e))) /\ d_namelen (d_dirent (e_node e)) < 256.
Proof.
  unfold deserialize_dirent_node. destruct (_ || _)%bool; [discriminate|]. intros [= <-]. split; [apply region_de_u32|apply namelen_255].
Qed.
Lemma u32_offset r o p : u32_region r -> region_offset r o = Ok p -> p <= 8800387989504.
Proof. intros [H1 H2]. unfold region_offset. destruct (N.leb_spec (r_size r) o); [discriminate|]. intros [= <-]. change SECTOR_SIZE with 2048. lia. Qed.

Lemma read_dirent_u32 d o e : read_dirent d o = Ok (Some e) -> u32_region (d_region (d_dirent (e_node e))).
Proof.
  unfold read_dirent. destruct (io (d o 14)) as [b| | |]; cbn [bind]; try discriminate. destruct (deserialize_dirent_node b o) as [x|] eqn:E; [|discriminate].
  destruct (io _); cbn [bind]; try discriminate. intros [= <-]. apply (de_u32 _ _ _ E).
Qed.
Lemma find_loop_u32 d r name fuel : forall o e, find_loop fuel d r name o = Ok e -> u32_region (d_region (d_dirent (e_node e))).
Proof.
  induction fuel as [|fuel IH]; intros o e; [discriminate|]. cbn [find_loop]. destruct (read_dirent d o) as [[x|]| | |] eqn:E; cbn [bind ok_or]; try discriminate.
  destruct (cmp_ignore_case_utf8 _ _); [intros [= <-]; eapply read_dirent_u32; eauto| |];
    (destruct (_ =? 0); [discriminate|]; destruct (region_offset _ _); cbn [bind]; try discriminate; eauto).
Qed.
Lemma find_dirent_u32 d r name fuel e : find_dirent fuel d r name = Ok e -> u32_region (d_region (d_dirent (e_node e))).
Proof. unfold find_dirent. destruct (region_is_empty r); [discriminate|]. destruct (region_offset r 0); cbn [bind]; try discriminate. apply find_loop_u32. Qed.
Lemma table_u32 e t : u32_region (d_region (d_dirent (e_node e))) -> dirent_table (d_dirent (e_node e)) = Some t -> u32_region t.
Proof. unfold dirent_table. destruct (is_directory _); [|discriminate]. intros H [= <-]. exact H. Qed.
Lemma walk_loop_u32 d r fuel : forall st out es, walk_loop fuel d r st out = Ok es -> Forall (fun e => u32_region (d_region (d_dirent (e_node e)))) out -> Forall (fun e => u32_region (d_region (d_dirent (e_node e)))) es.
Proof.
  induction fuel as [|fuel IH]; intros [|top st] out es; cbn [walk_loop]; try discriminate; try (intros [= <-]; auto; fail).
  destruct (region_offset r top) as [o| | |]; cbn [bind]; try discriminate. destruct (read_dirent d o) as [[e|]| | |] eqn:E; cbn [bind]; try discriminate; [|apply IH].
  intros H HF. eapply IH; [exact H|]. apply Forall_app. split; auto. constructor; auto. eapply read_dirent_u32; eauto.
Qed.
Lemma walk_u32 d r fuel es : walk_dirent_tree fuel d r = Ok es -> Forall (fun e => u32_region (d_region (d_dirent (e_node e)))) es.
Proof. unfold walk_dirent_tree. destruct (region_is_empty r); [intros [= <-]; constructor|]. intros H. eapply walk_loop_u32; eauto. Qed.
Lemma volume_u32 d v : read_volume d = Ok v -> u32_region (v_root v).
Proof.
  unfold read_volume. destruct (map_err _ _) as [b| | |]; cbn [bind]; try discriminate. destruct (volume_is_valid _); [|discriminate]. intros [= <-]. apply region_de_u32.
Qed.

(** Scans end in time. *)
Definition near (s : scan) : Prop := s_end s <= 4297064449.
Lemma scan_near d r s : u32_region r -> scan_dirent_tree d r = Ok s -> near s.
Proof.
  intros [H1 H2]. unfold scan_dirent_tree, near. destruct (region_is_empty r); [intros [= <-]; cbn; lia|]. destruct (region_offset r 0); cbn [bind]; try discriminate.
  destruct (io _); cbn [bind]; try discriminate. intros [= <-]. cbn [s_end].
  assert ((r_size r + 2047) / 2048 < 2097153) by (apply N.div_lt_upper_bound; lia). lia.
Qed.
Lemma next_sector_near d s s' : near s -> next_sector d s = Ok s' -> near s'.
Proof.
  unfold next_sector, near. intros H. destruct (s_end s <=? s_sector s + 1); [intros [= <-]; exact H|]. destruct (io _); cbn [bind]; try discriminate. intros [= <-]. exact H.
Qed.
Lemma next_loop_near d fuel : forall s o s', near s -> next_loop fuel d s = Ok (o, s') -> near s' /\ forall e, o = Some e -> u32_region (d_region (d_dirent (e_node e))).
Proof.
  induction fuel as [|fuel IH]; intros s o s' H; [discriminate|]. cbn [next_loop]. destruct (rassert (E := rerr) (s_offset s + 14 <? SECTOR_SIZE)); cbn [bind]; try discriminate.
  destruct (deserialize_dirent_node _ _) as [e|] eqn:E.
  - destruct (rassert (E := rerr) _); cbn [bind]; try discriminate. pose proof (proj1 (de_u32 _ _ _ E)) as U.
    destruct (SECTOR_SIZE <=? _).
    + destruct (next_sector d _) as [s1| | |] eqn:E1; cbn [bind]; try discriminate. intros [= <- <-].
      split; [eapply next_sector_near; [|exact E1]; exact H|]. intros e' [= <-]. exact U.
    + cbn [bind]. intros [= <- <-]. split; [exact H|]. intros e' [= <-]. exact U.
  - destruct (s_sector s + 1 <? s_end s).
    + destruct (next_sector d s) as [s1| | |] eqn:E1; cbn [bind]; try discriminate. apply IH. eapply next_sector_near; eauto.
    + intros [= <- <-]. split; [exact H|discriminate].
Qed.
Lemma next_entry_near d fuel s o s' : near s -> next_entry fuel d s = Ok (o, s') -> near s' /\ forall e, o = Some e -> u32_region (d_region (d_dirent (e_node e))).
Proof. unfold next_entry. intros H. destruct (s_end s <=? s_sector s); [intros [= <- <-]; split; [exact H|discriminate]|]. apply next_loop_near. exact H. Qed.

Section Below.
Variables (d d' : dev).
Hypothesis HE : same_below K d d'.

Lemma below o n : o <= 8801000000000 -> n <= 4294967296 -> d o n = d' o n.
Proof using HE. intros H1 H2. apply HE. unfold K. lia. Qed.
Lemma read_volume_below : read_volume d = read_volume d'.
Proof using HE. unfold read_volume. change (SECTOR_SIZE * 32) with 65536. rewrite below by lia. reflexivity. Qed.
Lemma read_dirent_below o : o <= 8800387989504 -> read_dirent d o = read_dirent d' o.
Proof using HE.
  intros Ho. unfold read_dirent. rewrite below by lia. destruct (io (d' o 14)) as [b| | |]; cbn [bind]; auto.
  destruct (deserialize_dirent_node b o) as [e|] eqn:E; auto. pose proof (proj2 (de_u32 _ _ _ E)). rewrite below by lia. reflexivity.
Qed.
Lemma find_loop_below r name fuel : u32_region r -> forall o, o <= 8800387989504 -> find_loop fuel d r name o = find_loop fuel d' r name o.
Proof using HE.
  intros HR. induction fuel as [|fuel IH]; intros o Ho; auto. cbn [find_loop]. rewrite read_dirent_below by exact Ho. destruct (read_dirent d' o) as [x| | |]; cbn [bind]; auto.
  destruct (ok_or x DoesNotExist) as [e| | |]; cbn [bind]; auto.
  destruct (cmp_ignore_case_utf8 name (name_str e)); auto;
    (destruct (_ =? 0); auto; destruct (region_offset _ _) eqn:E; cbn [bind]; auto; apply IH; eapply u32_offset; eauto).
Qed.
Lemma find_dirent_below fuel r name : u32_region r -> find_dirent fuel d r name = find_dirent fuel d' r name.
Proof using HE.
  intros HR. unfold find_dirent. destruct (region_is_empty r); auto. destruct (region_offset r 0) eqn:E; cbn [bind]; auto. apply find_loop_below; auto. eapply u32_offset; eauto.
Qed.
Lemma walk_segments_below fuel segs : forall r, u32_region r -> walk_segments fuel d r segs = walk_segments fuel d' r segs.
Proof using HE.
  induction segs as [|s segs IH]; intros r HR; auto. cbn [walk_segments]. rewrite find_dirent_below by exact HR. destruct (find_dirent fuel d' r s) as [e| | |] eqn:E; cbn [bind]; auto.
  destruct segs; auto. destruct (dirent_table _) as [t|] eqn:Et; cbn [ok_or bind]; auto. apply IH. eapply table_u32; [|exact Et]. eapply find_dirent_u32; eauto.
Qed.
Lemma walk_path_below fuel r path : u32_region r -> walk_path fuel d r path = walk_path fuel d' r path.
Proof using HE. intros HR. unfold walk_path. destruct path; auto. destruct (str_eqb _ _); auto. apply walk_segments_below. exact HR. Qed.
Lemma walk_loop_below r fuel : u32_region r -> forall st out, walk_loop fuel d r st out = walk_loop fuel d' r st out.
Proof using HE.
  intros HR. induction fuel as [|fuel IH]; intros [|top st] out; auto. cbn [walk_loop]. destruct (region_offset r top) as [o| | |] eqn:E; cbn [bind]; auto.
  rewrite read_dirent_below by (eapply u32_offset; eauto). destruct (read_dirent d' o) as [[e|]| | |]; cbn [bind]; auto.
Qed.
Lemma walk_below fuel r : u32_region r -> walk_dirent_tree fuel d r = walk_dirent_tree fuel d' r.
Proof using HE. intros HR. unfold walk_dirent_tree. destruct (region_is_empty r); auto. apply walk_loop_below. exact HR. Qed.
Lemma push_u32 parent es : Forall (fun e => u32_region (d_region (d_dirent (e_node e)))) es -> forall st, Forall (fun x => u32_region (snd x)) st -> Forall (fun x => u32_region (snd x)) (push_dirs parent es st).
Proof.
  unfold push_dirs. induction 1 as [|e es H HF IH]; intros st Hst; auto. cbn [fold_left]. apply IH. destruct (dirent_table _) eqn:E; auto. constructor; auto. eapply table_u32; eauto.
Qed.
Lemma file_tree_loop_below fuel : forall st out, Forall (fun x => u32_region (snd x)) st -> file_tree_loop fuel d st out = file_tree_loop fuel d' st out.
Proof using HE.
  induction fuel as [|fuel IH]; intros [|[p r] st] out HF; auto. cbn [file_tree_loop]. inversion HF; subst. rewrite walk_below by assumption.
  destruct (walk_dirent_tree fuel d' r) eqn:E; cbn [bind]; auto. apply IH. apply push_u32; auto. eapply walk_u32; eauto.
Qed.
Lemma file_tree_below fuel r : u32_region r -> file_tree fuel d r = file_tree fuel d' r.
Proof using HE. intros HR. apply file_tree_loop_below. constructor; auto. Qed.
Lemma next_sector_below s : near s -> next_sector d s = next_sector d' s.
Proof using HE.
  unfold next_sector, near. intros H. destruct (N.leb_spec (s_end s) (s_sector s + 1)); auto. change SECTOR_SIZE with 2048. rewrite below by lia. reflexivity.
Qed.
Lemma next_loop_below fuel : forall s, near s -> next_loop fuel d s = next_loop fuel d' s.
Proof using HE.
  induction fuel as [|fuel IH]; intros s H; auto. cbn [next_loop]. destruct (rassert (E := rerr) (s_offset s + 14 <? SECTOR_SIZE)); cbn [bind]; auto.
  destruct (deserialize_dirent_node _ _) as [e|].
  - destruct (rassert (E := rerr) _); cbn [bind]; auto. destruct (SECTOR_SIZE <=? _); auto. rewrite next_sector_below by exact H. reflexivity.
  - destruct (s_sector s + 1 <? s_end s); auto. rewrite next_sector_below by exact H. destruct (next_sector d' s) eqn:E; cbn [bind]; auto. apply IH. eapply next_sector_near; eauto.
Qed.
Lemma next_entry_below fuel s : near s -> next_entry fuel d s = next_entry fuel d' s.
Proof using HE. intros H. unfold next_entry. destruct (s_end s <=? s_sector s); auto. apply next_loop_below. exact H. Qed.
Lemma scan_below r : u32_region r -> scan_dirent_tree d r = scan_dirent_tree d' r.
Proof using HE.
  intros HR. unfold scan_dirent_tree. destruct (region_is_empty r); auto. destruct (region_offset r 0) as [o| | |] eqn:E; cbn [bind]; auto. pose proof (u32_offset _ _ _ HR E).
  rewrite below by lia. reflexivity.
Qed.
Lemma collect_below fuel : forall s, near s -> collect_scan fuel d s = collect_scan fuel d' s.
Proof using HE.
  induction fuel as [|fuel IH]; intros s H; auto. cbn [collect_scan]. rewrite next_entry_below by exact H. destruct (next_entry (S fuel) d' s) as [[[e|] s']| | |] eqn:E; cbn [bind]; auto.
  rewrite IH; [reflexivity|]. eapply next_entry_near; eauto.
Qed.
Lemma scan_all_below fuel r : u32_region r -> scan_all fuel d r = scan_all fuel d' r.
Proof using HE. intros HR. unfold scan_all. rewrite scan_below by exact HR. destruct (scan_dirent_tree d' r) eqn:E; cbn [bind]; auto. apply collect_below. eapply scan_near; eauto. Qed.
Lemma read_all_below x : u32_region (d_region x) -> read_data_all d x = read_data_all d' x.
Proof using HE.
  intros HR. unfold read_data_all. destruct (_ =? 0); auto. destruct (region_offset _ _) as [o| | |] eqn:E; cbn [bind]; auto. pose proof (u32_offset _ _ _ HR E). destruct HR.
  rewrite below by lia. reflexivity.
Qed.
Lemma read_offset_below x n o : u32_region (d_region x) -> read_data_offset d x n o = read_data_offset d' x n o.
Proof using HE.
  intros HR. unfold read_data_offset. cbv zeta. destruct (_ =? 0); auto. destruct (region_offset _ _) as [p| | |] eqn:E; cbn [bind]; auto. pose proof (u32_offset _ _ _ HR E). destruct HR.
  rewrite below by lia. reflexivity.
Qed.
End Below.

(** ** Floating point numbers *)
Definition T53 : N := 9007199254740992.
Lemma as_f64_exact n : n < T53 -> as_f64 n = n.
Proof.
  intros H. unfold as_f64. assert (E : N.size n - 53 = 0).
  { destruct n as [|p]; [reflexivity|]. rewrite N.size_log2 by discriminate. assert (N.log2 (N.pos p) < 53) by (apply N.log2_lt_pow2; [reflexivity|exact H]). lia. }
  rewrite E. reflexivity.
Qed.
Lemma fadd_exact a b : a + b < T53 -> fadd a b = a + b.
Proof. intros H. apply as_f64_exact. exact H. Qed.
Lemma blob_slice file o n : blob file o (o + n) = slice file o n.
Proof. unfold blob. f_equal. lia. Qed.
Lemma f64_dev_exact file o n : o + n < T53 -> f64_dev file o n = file_dev file o n.
Proof.
  intros H. unfold f64_dev, file_dev. cbv zeta. rewrite (as_f64_exact o), (as_f64_exact n), fadd_exact, blob_slice by lia. pose proof (P_Bytes.slice_len file o n) as L.
  destruct (N.eqb_spec n 0) as [->|Hn]; [reflexivity|].
  destruct (N.eqb_spec (len (slice file o n)) n), (N.leb_spec (o + n) (len file)); auto; lia.
Qed.
Lemma f64_below base file : base < 4294967296 -> same_below K (offset_dev (f64_dev file) base) (offset_dev (file_dev file) base).
Proof. intros H o n Ho. unfold offset_dev. apply f64_dev_exact. unfold K, T53 in *. lia. Qed.
Lemma probe_f64 file l : Forall (fun o => o < 4294967296) l -> probe (f64_dev file) l = probe (file_dev file) l.
Proof.
  induction 1 as [|o l Ho HF IH]; auto. cbn [probe]. rewrite (read_volume_below _ _ (f64_below o file Ho)), IH. reflexivity.
Qed.
Lemma probe_in d l base : probe d l = Ok base -> In base l.
Proof. induction l as [|o l IH]; [discriminate|]. cbn [probe]. destruct (read_volume _); try discriminate; [intros [= <-]; left; auto|right; auto]. Qed.
Lemma offsets_small : Forall (fun o => o < 4294967296) XDVD_OFFSETS.
Proof. repeat constructor. Qed.
Lemma wrapper_f64 file : offset_wrapper_new (f64_dev file) = offset_wrapper_new (file_dev file).
Proof. apply probe_f64, offsets_small. Qed.
Lemma wrapper_small d base : offset_wrapper_new d = Ok base -> base < 4294967296.
Proof. intros H. apply probe_in in H. pose proof offsets_small as F. rewrite Forall_forall in F. auto. Qed.

(** ** Unpacking *)
Lemma data_f64 file base r : base < 4294967296 -> u32_region r -> f64_data file base r = file_data file base r.
Proof.
  intros Hb [H1 H2]. unfold f64_data, file_data. cbv zeta. change SECTOR_SIZE with 2048.
  rewrite (as_f64_exact base), (as_f64_exact (2048 * _)), (as_f64_exact (r_size r)), !fadd_exact, blob_slice by (try rewrite !fadd_exact; unfold T53; lia). reflexivity.
Qed.
Lemma unpack_loop_f64 wf accepts file base : base < 4294967296 -> forall fuel stack count w evs, Forall (fun x => u32_region (d_region (d_dirent (e_node (snd x))))) stack ->
  f64_unpack_loop fuel wf accepts file base stack count w evs = web_unpack_loop fuel wf accepts file base stack count w evs.
Proof.
  intros Hb. induction fuel as [|fuel IH]; intros [|[parent e] stack] count w evs HF; auto. inversion HF as [|? ? He HF']; subst. cbn [snd] in He. cbn [f64_unpack_loop web_unpack_loop]. cbv zeta.
  destruct (dirent_table _) as [tab|] eqn:Et.
  - pose proof (table_u32 _ _ He Et) as Ht. rewrite (walk_below _ _ (f64_below base file Hb) wf tab Ht).
    destruct (create_directory _ _ _ w) as [w1 [dir| | |]]; cbn [run_host]; auto.
    destruct (walk_dirent_tree wf (offset_dev (file_dev file) base) tab) as [es| | |] eqn:E; cbn [run_read]; auto. apply IH.
    pose proof (walk_u32 _ _ _ _ E) as HU. clear - HU HF'. revert stack HF'. unfold push_entries. induction HU; intros stack HF'; auto. cbn [fold_left]. apply IHHU. constructor; auto.
  - destruct (create_file _ _ _ w) as [w1 [p| | |]]; cbn [run_host]; auto. destruct (_ =? 0); auto. rewrite data_f64 by auto.
    destruct (replace_file p _ w1) as [w2 [| | |]]; cbn [run_host]; auto.
Qed.
Lemma unpack_f64 fuel accepts file dest w : f64_unpack fuel accepts file dest w = web_unpack fuel accepts file dest w.
Proof.
  unfold f64_unpack, web_unpack. rewrite wrapper_f64. destruct (offset_wrapper_new _) as [base| | |] eqn:Eb; cbn [run_read]; auto. pose proof (wrapper_small _ _ Eb) as Hb. cbv zeta.
  pose proof (f64_below base file Hb) as HB. rewrite (read_volume_below _ _ HB). destruct (read_volume _) as [v| | |] eqn:Ev; cbn [run_read]; auto.
  rewrite (walk_below _ _ HB) by (eapply volume_u32; eauto). destruct (walk_dirent_tree fuel _ _) as [es| | |] eqn:E; cbn [run_read]; auto. apply unpack_loop_f64; auto.
  pose proof (walk_u32 _ _ _ _ E) as HU. unfold push_entries. assert (G : forall st, Forall (fun x => u32_region (d_region (d_dirent (e_node (snd x))))) st -> Forall (fun x : list str * dentry => u32_region (d_region (d_dirent (e_node (snd x))))) (fold_left (fun st e => (dest, e) :: st) es st)).
  { clear - HU. induction HU; intros st H1; auto. cbn [fold_left]. apply IHHU. constructor; auto. } apply G. constructor.
Qed.

(** ** Packing *)
Lemma u32_add_lt {E} m a b (c : N) : u32_add (E := E) m a b = Ok c -> c < 4294967296.
Proof.
  unfold u32_add. change u32_modulus with 4294967296. destruct (N.ltb_spec (a + b) 4294967296); [intros [= <-]; auto|]. destruct m; [discriminate|]. intros [= <-]. apply N.mod_lt. discriminate.
Qed.
Lemma required_bound {E} m n k : required_sectors (E := E) m n = Ok k -> n < 8796093022208.
Proof.
  unfold required_sectors. destruct (N.eqb_spec n 0); [lia|]. change SECTOR_SIZE with 2048. change u32_modulus with 4294967296. destruct (N.ltb_spec (n / 2048) 4294967296) as [H1|H1]; [|discriminate].
  intros _. pose proof (N.div_mod n 2048). pose proof (N.mod_lt n 2048). lia.
Qed.
Lemma allocate_bound {E} m nf n nf' s : nf < 4294967296 -> allocate_contiguous (E := E) m nf n = Ok (nf', s) -> nf' < 4294967296 /\ s < 4294967296 /\ n < 8796093022208.
Proof.
  intros H. unfold allocate_contiguous. destruct (required_sectors m n) as [k| | |] eqn:E1; cbn [bind]; try discriminate. destruct (u32_add m nf k) eqn:E2; cbn [bind]; try discriminate.
  intros [= <- <-]. split; [eapply u32_add_lt; eauto|]. split; auto. eapply required_bound; eauto.
Qed.
Definition P43 : N := 8796093030400.
Lemma align_bound {E} m v n a : sector_align (E := E) m v n = Ok a -> v + a < P43.
Proof.
  unfold sector_align. destruct (required_sectors m v) eqn:E1; cbn [bind]; try discriminate. apply required_bound in E1. destruct (required_sectors m (v + n)) eqn:E2; cbn [bind]; try discriminate.
  change SECTOR_SIZE with 2048. unfold P43. destruct (_ && _)%bool; intros [= <-]; lia.
Qed.
Lemma offsets_bound m final k : forall i offs offs', (i + k <= length offs)%nat -> (forall j x, (j < i)%nat -> nth_error offs j = Some x -> x < P43) ->
  offsets_loop m k i final offs = Ok offs' -> length offs' = length offs /\ forall j x, (j < i + k)%nat -> nth_error offs' j = Some x -> x < P43.
Proof.
  induction k as [|k IH]; intros i offs offs' Hl H; cbn [offsets_loop].
  - intros [= <-]. split; auto. rewrite Nat.add_0_r. exact H.
  - destruct (index offs i) as [a| | |]; cbn [bind]; try discriminate. destruct (index offs (i - 1)) as [b| | |]; cbn [bind]; try discriminate.
    destruct (if Nat.eqb _ _ then _ else _) as [nx| | |]; cbn [bind]; try discriminate. destruct (sector_align m (a + b) nx) as [adj| | |] eqn:E; cbn [bind]; try discriminate.
    destruct (rassert _); cbn [bind]; try discriminate. intros E2. apply IH in E2.
    + rewrite upd_length in E2. rewrite Nat.add_succ_r. exact E2.
    + rewrite upd_length. lia.
    + intros j x Hj. destruct (Nat.eq_dec j i) as [->|Hne].
      * rewrite nth_upd_eq by lia. intros [= <-]. eapply align_bound; eauto.
      * rewrite nth_upd_ne by lia. apply H. lia.
Qed.
Lemma compute_offsets_bound m lens offs : compute_offsets m lens = Ok offs -> forall j x, nth_error offs j = Some x -> x < P43.
Proof.
  unfold compute_offsets. destruct (index (rotate_right1 lens) 0) as [f| | |] eqn:E; cbn [bind]; try discriminate. intros H j x Hj.
  assert (L : (0 < length (rotate_right1 lens))%nat). { unfold index in E. destruct (nth_error _ 0) eqn:E0; [|discriminate]. apply nth_error_Some. congruence. }
  apply offsets_bound in H.
  - destruct H as [H1 H2]. apply (H2 j x); auto. assert (j < length offs)%nat by (apply nth_error_Some; congruence). rewrite H1, upd_length in H. lia.
  - rewrite upd_length. lia.
  - intros j' x' Hj'. replace j' with O by lia. rewrite nth_upd_eq by exact L. intros [= <-]. reflexivity.
Qed.
Definition listed (e : listing_entry) : Prop := l_sector e < 4294967296 /\ l_size e < 8796093022208.
Lemma disk_step_bound m offs bytes listing nf item st : (forall j x, nth_error offs j = Some x -> x < P43) -> Forall listed listing -> nf < 4294967296 ->
  disk_step m offs (bytes, listing, nf) item = Ok st -> let '(bytes, listing, nf) := st in len bytes < P43 + 512 /\ Forall listed listing /\ nf < 4294967296.
Proof.
  intros HO HL Hnf. unfold disk_step. destruct item as [idx n]. destruct (encode_name (data n)) as [name| | |] eqn:En; cbn [bind]; try discriminate.
  assert (Hn : len name < 256). { unfold encode_name in En. destruct (encode_1252 _); [|discriminate]. destruct (N.ltb_spec (len l) 256); [injection En as <-; auto|discriminate]. }
  destruct (child_offset offs (left_node n)) as [l| | |]; cbn [bind]; try discriminate. destruct (child_offset offs (right_node n)) as [r| | |]; cbn [bind]; try discriminate.
  destruct (allocate_contiguous m nf _) as [[nf' sector]| | |] eqn:Ea; cbn [bind]; try discriminate. destruct (allocate_bound _ _ _ _ _ Hnf Ea) as (A1 & A2 & A3).
  cbv zeta. set (ser := dnode_ser _). assert (Hs : len ser = 14) by apply dnode_ser_len. clearbody ser. rewrite Hs. change (14 =? 14) with true. cbn [rassert bind]. destruct (index offs idx) as [off| | |] eqn:Eo; cbn [bind]; try discriminate.
  unfold index in Eo. destruct (nth_error offs idx) as [o|] eqn:Eo'; [|discriminate]. injection Eo as ->. apply HO in Eo'.
  set (b1 := if len bytes <? off then _ else _). unfold rassert. destruct (N.eqb_spec (len b1) off) as [El|]; cbn [bind]; [|discriminate]. intros [= <-].
  split; [|split; auto].
  - destruct (0 <? _); rewrite !len_app, Hs, ?len_fill; unfold P43 in *; lia.
  - apply Forall_app. split; auto. constructor; auto. split; auto.
Qed.
Lemma disk_fold_bound m offs : (forall j x, nth_error offs j = Some x -> x < P43) -> forall items bytes listing nf st, len bytes < P43 + 512 -> Forall listed listing -> nf < 4294967296 ->
  foldM (disk_step m offs) (bytes, listing, nf) items = Ok st -> let '(bytes, listing, nf) := st in len bytes < P43 + 512 /\ Forall listed listing /\ nf < 4294967296.
Proof.
  intros HO. induction items as [|x items IH]; intros bytes listing nf st Hb HL Hnf; cbn [foldM].
  - intros [= <-]. auto.
  - destruct (disk_step m offs (bytes, listing, nf) x) as [[[b l] n]| | |] eqn:E; cbn [bind]; try discriminate. apply disk_step_bound in E; auto. destruct E as (E1 & E2 & E3). apply IH; auto.
Qed.
Lemma disk_repr_bound m w nf t nf' : nf < 4294967296 -> disk_repr m w nf = Ok (t, nf') -> len (entry_table t) < P43 + 4096 /\ Forall listed (file_listing t) /\ nf' < 4294967296.
Proof.
  intros Hnf. unfold disk_repr. destruct (table_is_empty w).
  { intros [= <- <-]. cbn [entry_table file_listing]. rewrite len_fill. split; [unfold P43; lia|]. auto. }
  destruct (lift (E := fserr) (reorder_backing_preorder (w_table w))) as [t0| | |]; cbn [bind]; try discriminate. destruct (mapM _ _) as [lens| | |]; cbn [bind]; try discriminate.
  destruct lens as [|l0 lens]; [intros [= <- <-]; cbn; split; [reflexivity|auto]|].
  destruct (compute_offsets m (l0 :: lens)) as [offs| | |] eqn:Eo; cbn [bind]; try discriminate.
  destruct (foldM _ _ _) as [[[bytes listing] nf1]| | |] eqn:Ef; cbn [bind]; try discriminate.
  apply disk_fold_bound in Ef; auto; [|apply (compute_offsets_bound _ _ _ Eo)|reflexivity]. destruct Ef as (E1 & E2 & E3).
  match goal with |- context [let* _ := ?x in _] => destruct x as [u| | |]; cbn [bind]; try discriminate end. destruct (rassert _); cbn [bind]; try discriminate.
  intros [= <- <-]. cbn [entry_table file_listing]. split; [|auto]. rewrite len_app, len_fill. unfold P43 in *. lia.
Qed.

(** *** Two devices that agree on small offsets *)
Section Agree.
Variables (D : Type) (W W' : wdev D) (I J : D -> Prop).
Definition agree {A} (x y : prog D A) (Q : A -> Prop) : Prop :=
  forall s evs, I s -> x (s, evs) = y (s, evs) /\ I (fst (fst (y (s, evs)))) /\ forall a, snd (y (s, evs)) = Ok a -> Q a.
Lemma agree_bind {A B} (x y : prog D A) (f g : A -> prog D B) Q R : agree x y Q -> (forall a, Q a -> agree (f a) (g a) R) -> agree (pbind x f) (pbind y g) R.
Proof.
  intros H1 H2 s evs Hs. destruct (H1 s evs Hs) as (E & HI & HQ). unfold pbind. rewrite E. destruct (y (s, evs)) as [[s1 evs1] [a| | |]]; cbn [fst snd] in *;
    try (split; [reflexivity|]; split; [exact HI|discriminate]). apply H2; auto.
Qed.
Lemma agree_lift {A} (r : res werr A) (Q : A -> Prop) : (forall a, r = Ok a -> Q a) -> agree (plift r) (plift r) Q.
Proof. intros H s evs Hs. cbn. auto. Qed.
Lemma agree_ret {A} (a : A) (Q : A -> Prop) : Q a -> agree (pret a) (pret a) Q.
Proof. intros H s evs Hs. cbn. split; auto. split; auto. intros a' [= <-]. exact H. Qed.
Lemma agree_report e : agree (report e) (report e) (fun _ => True).
Proof. intros s evs Hs. cbn. auto. Qed.

Variables (fs fs' : fsys D).
Hypothesis HW : forall s off b, I s -> off + len b <= 17592186060800 -> dev_write W s off b = dev_write W' s off b /\ I (fst (dev_write W' s off b)).
Hypothesis HC : forall p s out size, I s -> out <= 8796093022208 -> size < 8796093022208 -> copy_in fs p s 0 out size = copy_in fs' p s 0 out size /\ I (fst (copy_in fs' p s 0 out size)).
Hypothesis HP : forall s s' r, I s -> dev_len W' s = (s', r) -> dev_len W s = (s', r) /\ I s' /\ forall n b, r = Ok n -> len b <= 65536 -> dev_write W s' n b = dev_write W' s' n b /\ J (fst (dev_write W' s' n b)).
Hypothesis HIJ : forall s, I s -> J s.

Lemma agree_write off b : off + len b <= 17592186060800 -> agree (pwrite W off b) (pwrite W' off b) (fun _ => True).
Proof using HW.
  intros H s evs Hs. unfold pwrite. cbn [fst snd]. destruct (HW s off b Hs H) as [E HI]. rewrite E. destruct (dev_write W' s off b) as [s1 r]. cbn [fst snd] in *. auto.
Qed.
Lemma agree_copy p out size : out <= 8796093022208 -> size < 8796093022208 -> agree (pcopy fs p out size) (pcopy fs' p out size) (fun _ => True).
Proof using HC.
  intros H1 H2 s evs Hs. unfold pcopy. cbn [fst snd]. destruct (HC p s out size Hs H1 H2) as [E HI]. rewrite E. destruct (copy_in fs' p s 0 out size) as [s1 r]. cbn [fst snd] in *. auto.
Qed.
Definition placed (secs : dmap N) : Prop := Forall (fun x => snd x < 4294967296) secs.
Lemma placed_insert p n secs : n < 4294967296 -> placed secs -> placed (map_insert p n secs).
Proof using. intros Hn. induction 1 as [|[q a] secs H HF IH]; cbn [map_insert]; [repeat constructor; auto|]. destruct (path_cmp p q); repeat constructor; auto. Qed.
Lemma placed_get p n secs : placed secs -> map_get p secs = Some n -> n < 4294967296.
Proof using. induction 1 as [|[q a] secs H HF IH]; cbn [map_get]; [discriminate|]. destruct (path_cmp p q); [intros [= <-]; exact H|discriminate|exact IH]. Qed.
Lemma agree_listing p l : Forall listed l -> forall secs, placed secs -> agree (add_listing fs p l secs) (add_listing fs' p l secs) placed.
Proof using HC.
  induction 1 as [|e l [H1 H2] HF IH]; intros secs HS; cbn [add_listing]; [apply agree_ret; auto|]. cbv zeta. eapply agree_bind; [apply agree_report|]. intros _ _.
  destruct (l_is_dir e).
  - apply IH. apply placed_insert; auto.
  - eapply agree_bind; [apply agree_copy; change SECTOR_SIZE with 2048; lia|]. intros _ _. auto.
Qed.
Lemma agree_tables m l : forall nf secs, nf < 4294967296 -> placed secs -> agree (add_tables m W fs l nf secs) (add_tables m W' fs' l nf secs) (fun _ => True).
Proof using HW HC.
  induction l as [|[p w] l IH]; intros nf secs Hnf HS; cbn [add_tables]; [apply agree_ret; auto|].
  apply (agree_bind _ _ _ _ (fun n => n < 4294967296)).
  { apply agree_lift. intros n Hn. unfold unwrap in Hn. destruct (map_get p secs) eqn:E; [injection Hn as <-; eapply placed_get; eauto|discriminate]. }
  intros sector Hsec. apply (agree_bind _ _ _ _ (fun x => len (entry_table (fst x)) < P43 + 4096 /\ Forall listed (file_listing (fst x)) /\ snd x < 4294967296)).
  { apply agree_lift. intros [t nf1] H. destruct (disk_repr m w nf) as [[t' nf']| | |] eqn:E; try discriminate. injection H as <- <-. apply (disk_repr_bound _ _ _ _ _ Hnf E). }
  intros [t nf1] (H1 & H2 & H3). cbn [fst snd] in *. eapply agree_bind; [apply agree_report|]. intros _ _.
  eapply agree_bind; [apply agree_write; change SECTOR_SIZE with 2048; unfold P43 in *; lia|]. intros _ _.
  eapply agree_bind; [apply agree_listing; eauto|]. intros secs' HS'. apply IH; auto.
Qed.
Lemma volume_len r : len (volume_ser (volume_new r)) = 2048.
Proof using. unfold volume_ser, volume_new. cbn [v_magic0 v_root v_filetime v_unused v_magic1]. rewrite !len_app, len_fill. reflexivity. Qed.
Definition ends_alike {A} (x y : prog D A) : Prop := forall s evs, I s -> x (s, evs) = y (s, evs) /\ J (fst (fst (y (s, evs)))).
Lemma alike_bind {A B} (x y : prog D A) (f g : A -> prog D B) Q : agree x y Q -> (forall a, Q a -> ends_alike (f a) (g a)) -> ends_alike (pbind x f) (pbind y g).
Proof using HIJ.
  intros H1 H2 s evs Hs. destruct (H1 s evs Hs) as (E & HI & HQ). unfold pbind. rewrite E. destruct (y (s, evs)) as [[s1 evs1] [a| | |]]; cbn [fst snd] in *; auto. apply H2; auto.
Qed.
Lemma alike_pad : ends_alike (do _ <- pad_image W; report EFinishedPacking) (do _ <- pad_image W'; report EFinishedPacking).
Proof using HP HIJ.
  intros s evs Hs. unfold pad_image, pbind, plen, report. cbn [fst snd]. destruct (dev_len W' s) as [s4 r] eqn:El. destruct (HP s s4 r Hs El) as (El' & HI4 & Hpad). rewrite El'.
  destruct r as [k| | |]; cbn [map_err fst snd]; auto. destruct (0 <? k mod (32 * 2048)); cbn [pret fst snd]; auto.
  assert (Lb : len (fill (32 * 2048 - k mod (32 * 2048)) x00) <= 65536) by (clear; rewrite len_fill; lia).
  destruct (Hpad k _ eq_refl Lb) as [E5 HJ]. unfold pwrite. cbn [fst snd]. rewrite E5. destruct (dev_write W' s4 k _) as [s5 [u5| | |]]; cbn [map_err fst snd] in *; auto.
Qed.
Lemma agree_created m tree : agree (create_dirent_tables m tree) (create_dirent_tables m tree) (fun _ => True).
Proof using.
  unfold create_dirent_tables. eapply agree_bind; [apply agree_lift; intros; exact Logic.I|]. intros [tables count] _. eapply agree_bind; [apply agree_report|]. intros _ _.
  eapply agree_bind; [apply agree_report|]. intros _ _. apply agree_ret. exact Logic.I.
Qed.
Lemma alike_rest m tree : ends_alike (create_rest m W fs tree) (create_rest m W' fs' tree).
Proof using HW HC HP HIJ.
  unfold create_rest. eapply alike_bind; [apply agree_created|]. intros tables _. apply (alike_bind _ _ _ _ (fun _ => True)); [apply agree_lift; intros; exact Logic.I|]. intros [rp rd] _.
  apply (alike_bind _ _ _ _ (fun _ => True)); [apply agree_lift; intros; exact Logic.I|]. intros size _.
  apply (alike_bind _ _ _ _ (fun x => fst x < 4294967296 /\ snd x < 4294967296)).
  { apply agree_lift. intros [nf sec] Ea. destruct (allocate_bound m allocator_default _ _ _ eq_refl Ea) as (A1 & A2 & A3). auto. }
  intros [nf sec] [A1 A2]. cbn [fst snd] in *. eapply alike_bind; [apply agree_tables; auto; repeat constructor; auto|]. intros _ _.
  eapply alike_bind; [apply agree_write; rewrite volume_len; change (32 * SECTOR_SIZE) with 65536; lia|]. intros _ _. exact alike_pad.
Qed.
Lemma agree_dirs fuel : read_dir fs = read_dir fs' -> forall ds out, agree (dir_tree_loop fuel fs ds out) (dir_tree_loop fuel fs' ds out) (fun _ => True).
Proof using.
  intros HR. induction fuel as [|fuel IH]; intros [|d ds] out; cbn [dir_tree_loop]; try (apply agree_ret; exact Logic.I); try (apply agree_lift; intros; exact Logic.I).
  rewrite HR. eapply agree_bind; [apply agree_lift; intros; exact Logic.I|]. intros l _. eapply agree_bind; [apply agree_report|]. intros _ _. apply IH.
Qed.
Lemma alike_create fuel m : read_dir fs = read_dir fs' -> ends_alike (create_xdvdfs_image fuel m W fs) (create_xdvdfs_image fuel m W' fs').
Proof using HW HC HP HIJ.
  intros HR. rewrite !create_split. eapply alike_bind; [apply agree_dirs; exact HR|]. intros tree _. apply alike_rest.
Qed.
End Agree.

(** *** Streams *)
Definition short_stream (w : web) : Prop := ws_len w <= 17592186060800.
Lemma f64_write_exact q w off b : off < T53 -> f64_write q w off b = web_write q w off b.
Proof. intros H. unfold f64_write, web_write. rewrite as_f64_exact by exact H. reflexivity. Qed.
Lemma f64_writes q w off b : short_stream w -> off + len b <= 17592186060800 -> dev_write (f64_wdev q) w off b = dev_write (web_wdev q) w off b /\ short_stream (fst (dev_write (web_wdev q) w off b)).
Proof.
  intros Hw H. cbn [f64_wdev web_wdev dev_write]. rewrite f64_write_exact by (unfold T53; lia). split; [reflexivity|]. unfold web_write. destruct (over q _); cbn [fst]; auto.
  unfold short_stream in *. cbn [ws_len]. lia.
Qed.
Lemma f64_pads q w w' r : short_stream w -> dev_len (web_wdev q) w = (w', r) -> dev_len (f64_wdev q) w = (w', r) /\ short_stream w' /\
  forall n b, r = Ok n -> len b <= 65536 -> dev_write (f64_wdev q) w' n b = dev_write (web_wdev q) w' n b /\ True.
Proof.
  cbn [web_wdev dev_len]. intros Hw [= <- <-]. split; [reflexivity|]. split; [exact Hw|]. intros n b [= <-] Hb. split; auto. cbn [f64_wdev web_wdev dev_write].
  apply f64_write_exact. unfold short_stream, T53 in *. lia.
Qed.
Lemma f64_copies q t p w out size : short_stream w -> out <= 8796093022208 -> size < 8796093022208 ->
  copy_in (f64_fs q t) p w 0 out size = copy_in (web_fs q t) p w 0 out size /\ short_stream (fst (copy_in (web_fs q t) p w 0 out size)).
Proof.
  intros Hw H1 H2. cbn [f64_fs web_fs copy_in]. unfold f64_copy, web_copy. destruct (web_walk (populate t) p) as [[b|]|]; cbn [fst]; auto.
  rewrite !as_f64_exact by (unfold T53; lia). rewrite (blob_slice b 0 size). destruct (N.eqb_spec (len (slice b 0 size)) size) as [E|]; cbn [fst]; auto.
  destruct (f64_writes q w out (slice b 0 size) Hw) as [E1 E2]; [lia|]. cbn [f64_wdev web_wdev dev_write] in *. rewrite E1. destruct (web_write q w out _) as [w1 r]. cbn [fst] in *. auto.
Qed.
Lemma pack_f64 fuel m q t old : f64_pack fuel m q t old = web_pack fuel m q t old.
Proof.
  unfold f64_pack, web_pack. f_equal.
  apply (alike_create _ (f64_wdev q) (web_wdev q) short_stream (fun _ => True) (f64_fs q t) (web_fs q t) (f64_writes q) (f64_copies q t) (f64_pads q) (fun _ _ => Logic.I) fuel m eq_refl web_new []).
  unfold short_stream. cbn. lia.
Qed.

(** *** From an image *)
Inductive cached {T} (P : T -> Prop) : trie T -> Prop :=
| cached_node ch r : (forall c t, ch c = Some t -> cached P t) -> (forall v sub, r = Some (v, sub) -> P v /\ cached P sub) -> cached P (TNode ch r).
Lemma cached_default {T} (P : T -> Prop) : cached P trie_default.
Proof. constructor; discriminate. Qed.
Lemma cached_insert {T E} (P : T -> Prop) s v : P v -> forall t t', cached P t -> insert_tail (E := E) t s v (fun x => Ok x) = Ok t' -> cached P t'.
Proof.
  intros Hv. induction s as [|c s IH]; intros t t' [ch r H1 H2]; cbn [insert_tail M_Trie.record children].
  - destruct r as [[w sub]|]; cbn [bind]; intros [= <-]; constructor; auto; intros v' sub' [= <- <-]; auto. split; auto. apply cached_default.
  - unfold child. cbn [children]. destruct (c <? 256); cbn [bind]; [|discriminate]. destruct (insert_tail _ s v _) as [t1| | |] eqn:E1; cbn [bind]; try discriminate. intros [= <-].
    constructor; auto. intros c' t2. destruct (c' =? c); [|apply H1]. intros [= <-]. eapply IH; [|exact E1]. destruct (ch c) eqn:Ec; [eapply H1; eauto|apply cached_default].
Qed.
Lemma cached_store_tail {T} (P : T -> Prop) s g : (forall t, cached P t -> cached P (g t)) -> forall t, cached P t -> cached P (store_tail t s g).
Proof.
  intros Hg. induction s as [|c s IH]; intros t [ch r H1 H2]; cbn [store_tail children M_Trie.record].
  - constructor; auto. intros v sub. destruct r as [[w sub0]|]; [|discriminate]. intros [= <- <-]. destruct (H2 _ _ eq_refl). auto.
  - destruct (ch c) as [t1|] eqn:E; [|constructor; auto]. constructor; auto. intros c' t2. destruct (c' =? c); [|apply H1]. intros [= <-]. apply IH. eapply H1; eauto.
Qed.
Lemma cached_store {T} (P : T -> Prop) p new : cached P new -> forall t, cached P t -> cached P (store_subtree t p new).
Proof. intros Hn. induction p as [|s p IH]; intros t Ht; cbn [store_subtree]; auto. apply cached_store_tail; auto. Qed.
Lemma cached_descend {T E} (P : T -> Prop) s : forall t t', cached P t -> descend (E := E) t s = Ok (Some t') -> cached P t'.
Proof.
  induction s as [|c s IH]; intros t t' Ht; cbn [descend]; [intros [= <-]; auto|]. unfold child. destruct (c <? 256); cbn [bind]; [|discriminate]. destruct Ht as [ch r H1 H2]. cbn [children].
  destruct (ch c) eqn:E1; [|discriminate]. apply IH. eapply H1; eauto.
Qed.
Lemma cached_lookup {T E} (P : T -> Prop) p : forall t t', cached P t -> lookup_node (E := E) t p = Ok (Some t') -> cached P t'.
Proof.
  induction p as [|s p IH]; intros t t' Ht; cbn [lookup_node]; [intros [= <-]; auto|]. destruct (descend t s) as [[n|]| | |] eqn:E1; cbn [bind]; try discriminate.
  pose proof (cached_descend P s t n Ht E1) as Hn. destruct p as [|s' p]; [intros [= <-]; auto|]. destruct Hn as [ch r H1 H2]. cbn [M_Trie.record]. destruct r as [[v sub]|]; [|discriminate].
  apply IH. apply (H2 _ _ eq_refl).
Qed.
Lemma cached_get {T E} (P : T -> Prop) p t v : cached P t -> trie_get (E := E) t p = Ok (Some v) -> P v.
Proof.
  intros Ht. unfold trie_get. destruct (lookup_node t p) as [[n|]| | |] eqn:E1; cbn [bind]; try discriminate. pose proof (cached_lookup P p t n Ht E1) as [ch r H1 H2]. cbn [M_Trie.record].
  destruct r as [[w sub]|]; [|discriminate]. intros [= <-]. apply (H2 _ _ eq_refl).
Qed.
Definition entry_u32 (e : dentry) : Prop := u32_region (d_region (d_dirent (e_node e))).
Lemma list_loop_cached d fuel : forall s c, near s -> cached entry_u32 c -> cached entry_u32 (fst (list_loop fuel d s c)).
Proof.
  induction fuel as [|fuel IH]; intros s c Hs Hc; cbn [list_loop fst]; auto. destruct (next_entry (S fuel) d s) as [[[e|] s']| | |] eqn:E; cbn [fst]; auto.
  destruct (next_entry_near _ _ _ _ _ Hs E) as [Hs' He]. destruct (insert_tail c (name_str e) e _) as [c1| | |] eqn:E1; cbn [fst]; auto.
  assert (Hc1 : cached entry_u32 c1) by (eapply cached_insert; [|exact Hc|exact E1]; apply He; reflexivity). specialize (IH s' c1 Hs' Hc1). destruct (list_loop fuel d s' c1). exact IH.
Qed.
Lemma xfs_read_cached d fuel v c dir : u32_region (v_root v) -> cached entry_u32 c -> cached entry_u32 (fst (xfs_read_dir fuel d v c dir)).
Proof.
  intros Hv Hc. unfold xfs_read_dir. cbv zeta. set (found := match dir with [] => _ | _ => _ end).
  assert (HF : forall r node, found = Ok (r, node) -> u32_region r /\ cached entry_u32 node).
  { intros r node. unfold found. destruct dir as [|s dir]; [intros [= <- <-]; auto|]. destruct (lookup_node c (s :: dir)) as [[n|]| | |] eqn:E; cbn [bind]; try discriminate.
    pose proof (cached_lookup _ _ _ _ Hc E) as [ch rc H1 H2]. cbn [M_Trie.record]. destruct rc as [[e sub]|]; [|discriminate]. destruct (H2 _ _ eq_refl) as [He Hsub].
    destruct (dirent_table _) eqn:Et; [|discriminate]. intros [= <- <-]. split; auto. eapply table_u32; eauto. }
  destruct found as [[r node]| | |]; cbn [bind fst]; auto. destruct (HF _ _ eq_refl) as [Hr Hn]. destruct (scan_dirent_tree d r) as [s| | |] eqn:Es; cbn [bind fst]; auto.
  pose proof (list_loop_cached d fuel s node (scan_near _ _ _ Hr Es) Hn) as H. destruct (list_loop fuel d s node). cbn [fst] in *. apply cached_store; auto.
Qed.
Section Volume.
Variables (d d' : dev).
Hypothesis HE : same_below K d d'.
Lemma list_loop_below fuel : forall s node, near s -> list_loop fuel d s node = list_loop fuel d' s node.
Proof using HE.
  induction fuel as [|fuel IH]; intros s node Hs; auto. cbn [list_loop]. rewrite (next_entry_below d d' HE) by exact Hs. destruct (next_entry (S fuel) d' s) as [[[e|] s']| | |] eqn:E; auto.
  destruct (insert_tail node (name_str e) e _); auto. rewrite IH; [reflexivity|]. eapply next_entry_near; eauto.
Qed.
Lemma xfs_read_below fuel v c dir : u32_region (v_root v) -> cached entry_u32 c -> xfs_read_dir fuel d v c dir = xfs_read_dir fuel d' v c dir.
Proof using HE.
  intros Hv Hc. unfold xfs_read_dir. cbv zeta. set (found := match dir with [] => _ | _ => _ end).
  assert (HF : forall r node, found = Ok (r, node) -> u32_region r).
  { intros r node. unfold found. destruct dir as [|s dir]; [intros [= <- <-]; auto|]. destruct (lookup_node c (s :: dir)) as [[n|]| | |] eqn:E; cbn [bind]; try discriminate.
    pose proof (cached_lookup _ _ _ _ Hc E) as [ch rc H1 H2]. cbn [M_Trie.record]. destruct rc as [[e sub]|]; [|discriminate]. destruct (H2 _ _ eq_refl) as [He Hsub].
    destruct (dirent_table _) eqn:Et; [|discriminate]. intros [= <- <-]. eapply table_u32; eauto. }
  destruct found as [[r node]| | |]; cbn [bind]; auto. pose proof (HF _ _ eq_refl) as Hr. rewrite (scan_below d d' HE) by exact Hr. destruct (scan_dirent_tree d' r) as [s| | |] eqn:Es; cbn [bind]; auto.
  rewrite list_loop_below; [reflexivity|]. eapply scan_near; eauto.
Qed.
Lemma agree_xfs_dirs {D} (I : D -> Prop) sf v : u32_region (v_root v) -> forall fuel c ds out, cached entry_u32 c ->
  agree D I (xfs_dir_loop fuel sf d v c ds out) (xfs_dir_loop fuel sf d' v c ds out) (fun x => cached entry_u32 (fst x)).
Proof using HE.
  intros Hv. induction fuel as [|fuel IH]; intros c [|dir ds] out Hc; cbn [xfs_dir_loop]; try (apply agree_ret; exact Hc); try (apply agree_lift; discriminate).
  rewrite xfs_read_below by auto. pose proof (xfs_read_cached d' sf v c dir Hv Hc) as Hc'. destruct (xfs_read_dir sf d' v c dir) as [c' r]. cbn [fst] in Hc'.
  eapply agree_bind; [apply agree_lift; intros; exact Logic.I|]. intros l _. eapply agree_bind; [apply agree_report|]. intros _ _. apply IH. exact Hc'.
Qed.
Lemma rw_loop_f64 q off_in off_out size : lawful d' -> off_in + size <= K -> off_out + size <= 17592186060800 -> forall fuel copied w, copied <= size -> short_stream w ->
  rw_copy_loop fuel d (f64_wdev q) off_in off_out size copied w = rw_copy_loop fuel d' (web_wdev q) off_in off_out size copied w
  /\ short_stream (fst (rw_copy_loop fuel d' (web_wdev q) off_in off_out size copied w)).
Proof using HE.
  intros HL H1 H2. induction fuel as [|fuel IH]; intros copied w Hc Hw; cbn [rw_copy_loop]; destruct (N.ltb_spec copied size); cbn [fst]; auto. cbv zeta.
  set (n := N.min COPY_BUFFER (size - copied)). assert (Hn : copied + n <= size) by lia. rewrite (HE (off_in + copied) n) by lia. destruct (d' (off_in + copied) n) as [b| | |] eqn:E; cbn [map_err fst]; auto.
  apply HL in E. destruct (f64_writes q w (off_out + copied) b Hw) as [E1 E2]; [lia|]. rewrite E1. destruct (dev_write (web_wdev q) w (off_out + copied) b) as [w1 [| | |]]; cbn [map_err fst] in *; auto.
Qed.
Lemma xfs_copy_f64 q c p w out size : lawful d' -> cached entry_u32 c -> short_stream w -> out <= 8796093022208 -> size < 8796093022208 ->
  copy_in (xfs_fs (default_copier d (f64_wdev q)) c) p w 0 out size = copy_in (xfs_fs (default_copier d' (web_wdev q)) c) p w 0 out size
  /\ short_stream (fst (copy_in (xfs_fs (default_copier d' (web_wdev q)) c) p w 0 out size)).
Proof using HE.
  intros HL Hc Hw H1 H2. cbn [xfs_fs copy_in]. unfold xfs_copy. destruct (trie_get c p) as [[e|]| | |] eqn:E; cbn [map_err fst]; auto. cbv zeta. pose proof (cached_get _ _ _ _ Hc E) as He.
  destruct (_ =? 0); cbn [map_err fst]; auto. destruct (region_offset _ 0) as [o| | |] eqn:Eo; cbn [map_err fst]; auto. pose proof (u32_offset _ _ _ He Eo). destruct He as [He1 He2].
  unfold default_copier, rw_copy.
  destruct (rw_loop_f64 q o out (N.min size (r_size (d_region (d_dirent (e_node e))))) HL ltac:(unfold K; lia) ltac:(lia) (S (N.to_nat (N.min size (r_size (d_region (d_dirent (e_node e)))) / COPY_BUFFER))) 0 w (N.le_0_l _) Hw) as [E1 E2].
  rewrite E1. destruct (rw_copy_loop _ d' (web_wdev q) _ _ _ _ w) as [w1 r]. cbn [fst] in *. auto.
Qed.
Lemma repack_alike fuel m q : lawful d' -> repack fuel m (f64_wdev q) d (default_copier d (f64_wdev q)) (web_new, []) = repack fuel m (web_wdev q) d' (default_copier d' (web_wdev q)) (web_new, []).
Proof using HE.
  intros HL. unfold repack. rewrite (read_volume_below d d' HE). destruct (read_volume d') as [v| | |] eqn:Ev; auto. unfold create_from_volume. apply volume_u32 in Ev.
  eapply (alike_bind web short_stream (fun _ => True) (fun _ _ => Logic.I)); [apply (agree_xfs_dirs short_stream fuel v Ev); apply cached_default| |unfold short_stream; cbn; lia].
  intros [c tree] Hc. cbn [fst] in Hc. apply (alike_rest web (f64_wdev q) (web_wdev q) short_stream (fun _ => True)); auto using f64_writes, f64_pads.
  intros p s out size Hs Ho Hsz. apply xfs_copy_f64; auto.
Qed.
End Volume.
Lemma repack_f64 fuel m q file old : f64_repack fuel m q file old = web_repack fuel m q file old.
Proof.
  unfold f64_repack, web_repack, open_image. rewrite wrapper_f64. destruct (offset_wrapper_new _) as [base| | |] eqn:Eb; cbn [bind]; auto. apply wrapper_small in Eb. cbv zeta. f_equal.
  apply repack_alike; [apply f64_below; exact Eb|apply offset_lawful, file_lawful].
Qed.

(** ** Compressing *)
Definition near_blocks (s : lin) : Prop := Forall (fun x => match snd x with BFile _ i => i <= 4294967296 | _ => True end) s.
Lemma lin_insert_near k b s : match b with BFile _ i => i <= 4294967296 | _ => True end -> near_blocks s -> near_blocks (fst (lin_insert k b s)).
Proof.
  intros Hb. induction 1 as [|[k' b'] s H HF IH]; cbn [lin_insert fst]; [repeat constructor; auto|]. destruct (k ?= k'); cbn [fst]; try (repeat constructor; auto; fail).
  destruct (lin_insert k b s) as [s1 o]. cbn [fst] in *. constructor; auto.
Qed.
Lemma lin_write_near fuel : forall sector buf s, near_blocks s -> near_blocks (fst (lin_write_loop fuel sector buf s)).
Proof.
  induction fuel as [|fuel IH]; intros sector [|x buf] s Hs; cbn [lin_write_loop fst]; auto. cbv zeta.
  match goal with |- context [lin_insert sector ?b s] => pose proof (lin_insert_near sector b s Logic.I Hs) as H; destruct (lin_insert sector b s) as [s1 [o|]] end; cbn [fst] in *; auto.
Qed.
Lemma lin_file_near p sector n : forall i s, i + N.of_nat n <= 4294967297 -> near_blocks s -> near_blocks (fst (lin_file_loop n p sector i s)).
Proof.
  induction n as [|n IH]; intros i s Hi Hs; cbn [lin_file_loop fst]; auto.
  assert (H : near_blocks (fst (lin_insert (sector + i) (BFile p i) s))) by (apply lin_insert_near; auto; lia).
  destruct (lin_insert (sector + i) (BFile p i) s) as [s1 [o|]]; cbn [fst] in *; auto. apply IH; auto. lia.
Qed.
Lemma lin_writes s off b : near_blocks s -> near_blocks (fst (dev_write lin_wdev s off b)).
Proof. intros H. cbn [lin_wdev dev_write]. destruct (_ =? 0); cbn [fst]; auto. apply lin_write_near. exact H. Qed.
Lemma lin_copies p s out size : near_blocks s -> size < 8796093022208 -> near_blocks (fst (lin_copy p s 0 out size)).
Proof.
  intros H Hs. unfold lin_copy. change (negb (0 =? 0)) with false. destruct (negb _); cbn [fst]; auto. cbv zeta. change SECTOR_SIZE with 2048.
  set (n := size / 2048 + _). assert (Hn : n <= 4294967296).
  { unfold n. pose proof (N.div_mod size 2048). destruct (N.ltb_spec 0 (size mod 2048)); lia. }
  pose proof (lin_file_near p (out / 2048) (N.to_nat n) 0 s ltac:(lia) H) as H1. destruct (lin_file_loop _ _ _ _ s) as [s1 ok]. exact H1.
Qed.
Lemma layout_near {D} fuel m (fs : fsys D) evs s evs' r : compress_layout fuel m fs ([], evs) = ((s, evs'), r) -> near_blocks s.
Proof.
  intros E.
  assert (X : ends_alike lin near_blocks near_blocks (create_xdvdfs_image fuel m lin_wdev (lin_fs fs)) (create_xdvdfs_image fuel m lin_wdev (lin_fs fs))).
  { apply alike_create; auto.
    - intros s0 off b H _. split; [reflexivity|]. apply lin_writes. exact H.
    - intros p s0 out size H _ Hs. split; [reflexivity|]. cbn [lin_fs copy_in]. apply lin_copies; auto.
    - intros s0 s' r0 H E0. split; [exact E0|]. cbn [lin_wdev dev_len] in E0. injection E0 as <- <-. split; [exact H|]. intros n b _ _. split; [reflexivity|]. apply lin_writes. exact H. }
  destruct (X [] evs (Forall_nil _)) as [_ H]. change (near_blocks (fst (fst (compress_layout fuel m fs ([], evs))))) in H. rewrite E in H. exact H.
Qed.
Lemma sector_f64 t s k : near_blocks s -> read_sector (f64_slice_fs t) s k = read_sector (web_slice_fs t) s k.
Proof.
  intros H. unfold read_sector. destruct (lin_get k s) as [[data|p i|]|] eqn:E; auto.
  assert (Hi : i <= 4294967296).
  { clear - H E. induction H as [|[k' b] s H HF IH]; cbn [lin_get] in E; [discriminate|]. destruct (k ?= k'); [injection E as ->; exact H|discriminate|auto]. }
  cbn [f64_slice_fs web_slice_fs copy_in]. unfold f64_copy_slice, web_copy_slice. destruct (web_walk (populate t) p) as [[b|]|]; auto. cbv zeta. rewrite len_fill.
  rewrite (as_f64_exact (2048 * i)), (as_f64_exact (N.min _ _)), fadd_exact, blob_slice by (unfold T53; lia). reflexivity.
Qed.
Lemma compress_f64 fuel m t : compress_layout fuel m (f64_slice_fs t) = compress_layout fuel m (web_slice_fs t).
Proof. reflexivity. Qed.

Lemma c161_reading_lemma :
  reads_below K read_volume
  /\ (forall d v, read_volume d = Ok v -> u32_region (v_root v))
  /\ (forall d fuel r es e, walk_dirent_tree fuel d r = Ok es -> In e es -> u32_region (d_region (d_dirent (e_node e))))
  /\ forall fuel r, u32_region r ->
     (forall path, reads_below K (fun d => walk_path fuel d r path))
     /\ reads_below K (fun d => walk_dirent_tree fuel d r)
     /\ reads_below K (fun d => file_tree fuel d r)
     /\ reads_below K (fun d => scan_all fuel d r)
     /\ forall x, d_region x = r -> reads_below K (fun d => read_data_all d x)
                  /\ forall n o, reads_below K (fun d => read_data_offset d x n o).
Proof.
  split; [intros d d' H; apply read_volume_below; exact H|]. split; [exact volume_u32|]. split.
  { intros d fuel r es e H Hin. pose proof (walk_u32 _ _ _ _ H) as F. rewrite Forall_forall in F. auto. }
  intros fuel r Hr. split; [intros p d d' H; apply walk_path_below; auto|]. split; [intros d d' H; apply walk_below; auto|]. split; [intros d d' H; apply file_tree_below; auto|].
  split; [intros d d' H; apply scan_all_below; auto|]. intros x <-. split; [intros d d' H; apply read_all_below; auto|]. intros n o d d' H. apply read_offset_below; auto.
Qed.
Lemma c161_compress_lemma fuel m t evs s evs' r : compress_layout fuel m (f64_slice_fs t) ([], evs) = ((s, evs'), r) ->
  compress_layout fuel m (web_slice_fs t) ([], evs) = ((s, evs'), r)
  /\ forall k, read_sector (f64_slice_fs t) s k = read_sector (web_slice_fs t) s k.
Proof. intros H. split; [exact H|]. intros k. apply sector_f64. eapply layout_near; eauto. Qed.

(** The rounding itself. *)
Lemma as_f64_parts n : 53 < N.size n ->
  let e := N.size n - 53 in exists q r, n = q * 2 ^ e + r /\ r < 2 ^ e /\ 2 ^ 52 <= q < 2 ^ 53 /\ 0 < e /\ 2 ^ e = 2 * 2 ^ (e - 1)
  /\ as_f64 n = (if (2 ^ (e - 1) <? r) || ((r =? 2 ^ (e - 1)) && N.odd q) then q + 1 else q) * 2 ^ e.
Proof.
  intros H e. assert (He : 0 < e) by (unfold e; lia). assert (P : 2 ^ e <> 0) by (apply N.pow_nonzero; lia).
  exists (n / 2 ^ e), (n mod 2 ^ e).
  assert (Hn : n <> 0) by (intros ->; cbn in H; lia).
  assert (S : N.size n = 53 + e) by (unfold e; lia).
  pose proof (N.size_gt n) as G. pose proof (N.size_le n) as L.
  assert (Pe : 2 ^ e = 2 * 2 ^ (e - 1)) by (rewrite <- (N.pow_succ_r' 2 (e - 1)); f_equal; lia).
  rewrite S, N.pow_add_r in G, L.
  repeat split; try assumption.
  - rewrite (N.div_mod' n (2 ^ e)) at 1. lia.
  - apply N.mod_lt. exact P.
  - rewrite N.size_log2 in S by exact Hn. pose proof (N.log2_spec n ltac:(lia)) as [B _].
    replace (N.log2 n) with (52 + e) in B by lia. rewrite N.pow_add_r in B.
    apply N.div_le_lower_bound; [exact P|]. lia.
  - apply N.div_lt_upper_bound; [exact P|]. lia.
  - unfold as_f64. fold e. destruct (N.eqb_spec e 0); [lia|]. rewrite N.shiftr_div_pow2, N.shiftl_mul_pow2. reflexivity.
Qed.
Lemma significant_apart q e x : 2 ^ 52 <= q -> 0 < e -> significant 53 x -> x <= q * 2 ^ e \/ (q + 1) * 2 ^ e <= x.
Proof.
  intros Q He [a [f [A ->]]]. destruct (N.le_gt_cases e f) as [L|L].
  - replace (2 ^ f) with (2 ^ (f - e) * 2 ^ e) by (rewrite <- N.pow_add_r; f_equal; lia). rewrite N.mul_assoc.
    destruct (N.le_gt_cases (a * 2 ^ (f - e)) q); [left|right]; apply N.mul_le_mono_r; lia.
  - left. assert (F : 2 ^ f <= 2 ^ (e - 1)) by (apply N.pow_le_mono_r; lia).
    assert (Pe : 2 ^ e = 2 * 2 ^ (e - 1)) by (rewrite <- (N.pow_succ_r' 2 (e - 1)); f_equal; lia).
    change (2 ^ 53) with (2 * 2 ^ 52) in A. rewrite Pe. nia.
Qed.
Lemma significant_even k c e : c <= 2 ^ k -> 0 < k -> significant k (c * 2 ^ e).
Proof.
  intros C K. destruct (N.eq_dec c (2 ^ k)) as [->|].
  - exists 1, (k + e). split; [|rewrite N.pow_add_r; lia]. apply N.pow_gt_1; lia.
  - exists c, e. split; [lia|reflexivity].
Qed.
Lemma c161_rounding_lemma n :
  significant 53 (as_f64 n)
  /\ forall x, significant 53 x -> dist n (as_f64 n) <= dist n x
     /\ (dist n (as_f64 n) = dist n x -> x = as_f64 n \/ significant 52 (as_f64 n)).
Proof.
  destruct (N.le_gt_cases (N.size n) 53) as [L|L].
  - assert (E : as_f64 n = n) by (unfold as_f64; replace (N.size n - 53) with 0 by lia; reflexivity).
    rewrite E. split.
    + exists n, 0. split; [|rewrite N.pow_0_r; lia]. eapply N.lt_le_trans; [apply N.size_gt|]. apply N.pow_le_mono_r; lia.
    + intros x _. unfold dist. split; [lia|]. intros D. left. lia.
  - destruct (as_f64_parts n L) as [q [r [En [Hr [[Q1 Q2] [He [Pe ->]]]]]]]. cbv zeta in *. set (e := N.size n - 53) in *.
    set (h := 2 ^ (e - 1)) in *. set (up := (h <? r) || ((r =? h) && N.odd q)).
    split.
    + apply significant_even; [|lia]. destruct up; lia.
    + intros x X. destruct (significant_apart q e x Q1 He X) as [Y|Y]; unfold dist;
      rewrite N.mul_add_distr_r, N.mul_1_l in Y || idtac; set (b := q * 2 ^ e) in *;
      assert (U : (q + 1) * 2 ^ e = b + 2 * h) by (unfold b; rewrite <- Pe; lia); rewrite Pe in Hr.
      all: destruct (N.ltb_spec h r) as [T|T]; [subst up; cbn [orb]; rewrite U; split; [lia|intros D; left; lia]|].
      all: destruct (N.eqb_spec r h) as [T'|T']; [|subst up; cbn [orb andb]; fold b; split; [lia|intros D; left; lia]].
      all: subst up; cbn [orb andb]; destruct (N.odd q) eqn:O; fold b; rewrite ?U; (split; [lia|intros _; right]).
      all: change (2 ^ 53) with (2 * 2 ^ 52) in Q2.
      all: try (rewrite <- U). all: try unfold b.
      all: try (apply N.odd_spec in O; destruct O as [c ->];
        replace ((2 * c + 1 + 1) * 2 ^ e) with ((c + 1) * 2 ^ (e + 1)) by (rewrite N.pow_add_r, N.pow_1_r; lia); apply significant_even; lia).
      all: rewrite <- N.negb_even in O; apply Bool.negb_false_iff, N.even_spec in O; destruct O as [c ->];
        replace (2 * c * 2 ^ e) with (c * 2 ^ (e + 1)) by (rewrite N.pow_add_r, N.pow_1_r; lia); apply significant_even; lia.
Qed.
Lemma c161_slices_lemma t p dest input output size : input < 2 ^ 52 -> len dest < 2 ^ 52 ->
  f64_copy_slice (populate t) p dest input output size = web_copy_slice (populate t) p dest input output size.
Proof.
  intros I D. unfold f64_copy_slice, web_copy_slice. destruct (web_walk (populate t) p) as [[b|]|]; auto. cbv zeta.
  change (2 ^ 52) with 4503599627370496 in *.
  rewrite (as_f64_exact input), (as_f64_exact (N.min _ _)), fadd_exact, blob_slice by (unfold T53; lia). reflexivity.
Qed.
