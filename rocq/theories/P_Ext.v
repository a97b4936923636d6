(** Reading depends on a device only through its answers. *)
From Verif Require Import M_Base M_Util M_Layout M_Read M_Check S_Avl S_Codec S_Read S_Img S_Check P_Base P_Tree P_Check.
From Coq Require Import Init.Byte Permutation Sorted Lia.
Local Open Scope N_scope.

Section Ext.
Variables d d' : dev.
Hypothesis HE : forall o n, d o n = d' o n.

Lemma read_volume_ext : read_volume d = read_volume d'.
Proof. unfold read_volume. rewrite HE. reflexivity. Qed.
Lemma read_dirent_ext o : read_dirent d o = read_dirent d' o.
Proof.
  unfold read_dirent. rewrite HE. destruct (io (d' o 14)) as [b| | |]; cbn [bind]; auto.
  destruct (deserialize_dirent_node b o); auto. rewrite HE. reflexivity.
Qed.
Lemma find_loop_ext r name fuel : forall o, find_loop fuel d r name o = find_loop fuel d' r name o.
Proof.
  induction fuel as [|fuel IH]; intros o; auto. cbn [find_loop]. rewrite read_dirent_ext. destruct (read_dirent d' o) as [x| | |]; cbn [bind]; auto.
  destruct (ok_or x DoesNotExist) as [e| | |]; cbn [bind]; auto.
  destruct (cmp_ignore_case_utf8 name (name_str e)); auto;
    (destruct (_ =? 0); auto; destruct (region_offset _ _); cbn [bind]; auto).
Qed.
Lemma find_dirent_ext fuel r name : find_dirent fuel d r name = find_dirent fuel d' r name.
Proof. unfold find_dirent. destruct (region_is_empty r); auto. destruct (region_offset r 0); cbn [bind]; auto. apply find_loop_ext. Qed.
Lemma walk_segments_ext fuel segs : forall r, walk_segments fuel d r segs = walk_segments fuel d' r segs.
Proof.
  induction segs as [|s segs IH]; intros r; auto. cbn [walk_segments]. rewrite find_dirent_ext. destruct (find_dirent fuel d' r s) as [e| | |]; cbn [bind]; auto.
  destruct segs; auto. destruct (ok_or _ _); cbn [bind]; auto.
Qed.
Lemma walk_path_ext fuel r path : walk_path fuel d r path = walk_path fuel d' r path.
Proof. unfold walk_path. destruct path; auto. destruct (str_eqb _ _); auto. apply walk_segments_ext. Qed.
Lemma walk_loop_ext r fuel : forall st out, walk_loop fuel d r st out = walk_loop fuel d' r st out.
Proof.
  induction fuel as [|fuel IH]; intros [|top st] out; auto. cbn [walk_loop]. destruct (region_offset r top) as [o| | |]; cbn [bind]; auto.
  rewrite read_dirent_ext. destruct (read_dirent d' o) as [[e|]| | |]; cbn [bind]; auto.
Qed.
Lemma walk_dirent_tree_ext fuel r : walk_dirent_tree fuel d r = walk_dirent_tree fuel d' r.
Proof. unfold walk_dirent_tree. destruct (region_is_empty r); auto. apply walk_loop_ext. Qed.
Lemma file_tree_loop_ext fuel : forall st out, file_tree_loop fuel d st out = file_tree_loop fuel d' st out.
Proof.
  induction fuel as [|fuel IH]; intros [|[p r] st] out; auto. cbn [file_tree_loop]. rewrite walk_dirent_tree_ext.
  destruct (walk_dirent_tree fuel d' r); cbn [bind]; auto.
Qed.
Lemma file_tree_ext fuel r : file_tree fuel d r = file_tree fuel d' r.
Proof. apply file_tree_loop_ext. Qed.
Lemma next_sector_ext s : next_sector d s = next_sector d' s.
Proof. unfold next_sector. rewrite HE. reflexivity. Qed.
Lemma next_loop_ext fuel : forall s, next_loop fuel d s = next_loop fuel d' s.
Proof.
  induction fuel as [|fuel IH]; intros s; auto. cbn [next_loop]. destruct (rassert (E := rerr) (s_offset s + 14 <? SECTOR_SIZE)); cbn [bind]; auto.
  destruct (deserialize_dirent_node _ _) as [e|].
  - destruct (rassert (E := rerr) _); cbn [bind]; auto. destruct (SECTOR_SIZE <=? _); auto. rewrite next_sector_ext. reflexivity.
  - destruct (s_sector s + 1 <? s_end s); auto. rewrite next_sector_ext. destruct (next_sector d' s); cbn [bind]; auto.
Qed.
Lemma next_entry_ext fuel s : next_entry fuel d s = next_entry fuel d' s.
Proof. unfold next_entry. destruct (s_end s <=? s_sector s); auto. apply next_loop_ext. Qed.
Lemma scan_dirent_tree_ext r : scan_dirent_tree d r = scan_dirent_tree d' r.
Proof. unfold scan_dirent_tree. destruct (region_is_empty r); auto. destruct (region_offset r 0); cbn [bind]; auto. rewrite HE. reflexivity. Qed.
Lemma collect_scan_ext fuel : forall s, collect_scan fuel d s = collect_scan fuel d' s.
Proof.
  induction fuel as [|fuel IH]; intros s; auto. cbn [collect_scan]. rewrite next_entry_ext. destruct (next_entry (S fuel) d' s) as [[[e|] s']| | |]; cbn [bind]; auto.
  rewrite IH. reflexivity.
Qed.
Lemma scan_all_ext fuel r : scan_all fuel d r = scan_all fuel d' r.
Proof. unfold scan_all. rewrite scan_dirent_tree_ext. destruct (scan_dirent_tree d' r); cbn [bind]; auto. apply collect_scan_ext. Qed.
Lemma read_data_all_ext x : read_data_all d x = read_data_all d' x.
Proof. unfold read_data_all. destruct (_ =? 0); auto. destruct (region_offset _ _); cbn [bind]; auto. rewrite HE. reflexivity. Qed.

Lemma stored_ext e : stored d e -> stored d' e.
Proof.
  intros (hdr & name & H). exists hdr, name. rewrite <- !HE. exact H.
Qed.
Lemma tree_at_ext r t : forall o, tree_at d r o t -> tree_at d' r o t.
Proof.
  induction t as [|l IHl e r' IHr]; intros o; cbn [tree_at]; auto. intros (A & B & C & D & E). split; auto. split; auto. split; [apply stored_ext; auto|]. split.
  - destruct l; auto. destruct D; auto.
  - destruct r'; auto. destruct E; auto.
Qed.
Lemma directory_ext r t : directory d r t -> directory d' r t.
Proof.
  intros (A & B). split; auto. destruct t; [|apply tree_at_ext; auto]. rewrite <- HE. exact A.
Qed.
Lemma contains_ext t : forall r, contains d t r -> contains d' t r.
Proof.
  induction t as [b|cs IH] using ftree_rect'; intros r Hc.
  - inversion Hc; subst. apply ct_file; auto. rewrite <- HE. auto.
  - apply contains_dir_inv in Hc as [(-> & HZ)|(T & es & HD & HP & HF)]; [apply ct_empty; auto|].
    apply (ct_dir d' cs r T es); auto using directory_ext.
    clear HD HP T. induction HF as [|c e cs es (E1 & E2 & E3) HF IHF]; [apply Forall2_nil|]. inversion IH; subst. apply Forall2_cons; auto.
Qed.
Lemma lookup_ext r segs o : lookup d r segs o -> lookup d' r segs o.
Proof.
  induction 1; [apply lk_empty; auto|eapply lk_absent|eapply lk_found|eapply lk_file|eapply lk_step]; eauto using directory_ext.
Qed.
End Ext.
