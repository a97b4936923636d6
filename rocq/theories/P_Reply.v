(** Proofs of C159: every request of a mounted image ends, and which ones panic. *)
From Verif Require Import M_Base M_Util M_Layout M_Avl M_Sector M_Dirtab M_Read M_Img M_Remap M_Cli M_Fuse.
From Verif Require Import S_Avl S_Codec S_Read S_Img S_Check S_Cli S_Fuse S_Sectors S_Cycle S_Total S_Reply.
From Verif Require Import P_Base P_Ext P_Read P_Path P_Find P_Total P_Term P_Witness P_Sectors P_Fuse P_Cycle Prop_Cycle.
From Coq Require Import Init.Byte Permutation Lia.
Local Open Scope N_scope.

(** The calls of [next_entry] from [s] on, up to the end, an error or the panic [q]. *)
Inductive course (d : dev) (n : nat) : scan -> option panic -> Prop :=
| course_end s s' : (forall fuel, (n < fuel)%nat -> next_entry fuel d s = Ok (None, s')) -> course d n s None
| course_err s x : (forall fuel, (n < fuel)%nat -> next_entry fuel d s = Err x) -> course d n s None
| course_panic s p : (forall fuel, (n < fuel)%nat -> next_entry fuel d s = Panic p) -> course d n s (Some p)
| course_more s e s' q m : (forall fuel, (n < fuel)%nat -> next_entry fuel d s = Ok (Some e, s')) -> (m < n)%nat -> course d m s' q -> course d n s q.

Lemma course_total d : real d -> forall k s, scan_inv s -> s_sector s <= s_end s -> s_offset s mod 4 = 0 -> scan_measure s = k ->
  exists q, course d (N.to_nat k) s q.
Proof.
  intros HR. induction k as [k IH] using (well_founded_induction N.lt_wf_0). intros s HI HS H4 HK.
  destruct (N.leb_spec (s_end s) (s_sector s)) as [HE|HE].
  - exists None. apply (course_end _ _ _ s). intros fuel _. unfold next_entry. destruct (N.leb_spec (s_end s) (s_sector s)); [reflexivity|lia].
  - destruct (next_loop_step d HR _ s HI HE H4 eq_refl) as (o & Ho & HOK & H4').
    assert (HK' : s_end s - s_sector s <= k) by (specialize (HI HE); unfold scan_measure in HK; lia).
    assert (HNE : forall fuel, (N.to_nat k < fuel)%nat -> next_entry fuel d s = o).
    { intros fuel Hf. unfold next_entry. destruct (N.leb_spec (s_end s) (s_sector s)); [lia|]. apply Ho. lia. }
    destruct o as [[[e|] s']|x|p|]; cbn in HOK; [| | | |contradiction].
    + destruct HOK as (B1 & B2 & B3). destruct (IH (scan_measure s') ltac:(lia) s' B1 B2 (H4' _ _ eq_refl) eq_refl) as (q & Q).
      exists q. eapply (course_more _ _ _ e s'); [exact HNE| |exact Q]. lia.
    + exists None. eapply course_end. exact HNE.
    + exists None. eapply course_err. exact HNE.
    + exists (Some p). eapply course_panic. exact HNE.
Qed.

(** Fuel that suffices for a course suffices for a longer bound. *)
Lemma course_le d n s q : course d n s q -> forall n', (n <= n')%nat -> course d n' s q.
Proof.
  induction 1 as [n s s' H|n s x H|n s p H|n s e s' q m H L C IH]; intros n' Hn.
  - eapply course_end. intros fuel Hf. apply H. lia.
  - eapply course_err. intros fuel Hf. apply H. lia.
  - eapply course_panic. intros fuel Hf. apply H. lia.
  - eapply (course_more _ _ _ e s' q m); [intros fuel Hf; apply H; lia|lia|exact C].
Qed.

Lemma course_collect d n s p : course d n s (Some p) -> forall fuel, (n < fuel)%nat -> collect_scan fuel d s = Panic p.
Proof.
  remember (Some p) as q. induction 1 as [n s s' H|n s x H|n s p' H|n s e s' q m H L C IH]; intros [|fuel] Hf; try discriminate; try lia.
  - injection Heqq as ->. cbn [collect_scan]. rewrite H by lia. reflexivity.
  - cbn [collect_scan]. rewrite H by lia. cbn [bind]. rewrite IH by (auto; lia). reflexivity.
Qed.

(** What a loop over the course may return. *)
Definition may {E A} (q : option panic) (r : res E A) : Prop :=
  match r with Ok _ | Err _ => True | Panic p => q = Some p | OutOfFuel => False end.

Lemma fill_ends d n s q : course d n s q -> forall full idx c l,
  exists c' r, (forall fuel, (n < fuel)%nat -> fill_entries fuel d full s idx c l = (c', r)) /\ may q r.
Proof.
  induction 1 as [n s s' H|n s x H|n s p H|n s e s' q m H L C IH]; intros full idx c l.
  - exists c, (Ok l). split; [|exact I]. intros [|fuel] Hf; [lia|]. cbn [fill_entries]. rewrite H by lia. reflexivity.
  - exists c, (Err x). split; [|exact I]. intros [|fuel] Hf; [lia|]. cbn [fill_entries]. rewrite H by lia. reflexivity.
  - exists c, (Panic p). split; [|reflexivity]. intros [|fuel] Hf; [lia|]. cbn [fill_entries]. rewrite H by lia. reflexivity.
  - destruct (get_or_assign c e) as [c1 i] eqn:G. set (x := mkRdent i (idx + 1) (is_directory (d_dirent (e_node e))) (name_str e)).
    destruct (full l x) eqn:F.
    + exists c1, (Ok l). split; [|exact I]. intros [|fuel] Hf; [lia|]. cbn [fill_entries]. rewrite H by lia. rewrite G. fold x. rewrite F. reflexivity.
    + destruct (IH full (idx + 1) c1 (l ++ [x])) as (c' & r & A & B). exists c', r. split; [|exact B].
      intros [|fuel] Hf; [lia|]. cbn [fill_entries]. rewrite H by lia. rewrite G. fold x. rewrite F. apply A. lia.
Qed.

Lemma skip_ends d n s q : course d n s q -> forall idx offset,
  exists r, (forall fuel, (n < fuel)%nat -> skip_entries fuel d s idx offset = r) /\ may q r
    /\ (forall s' i, r = Ok (s', i) -> course d n s' q \/ course d n s' None).
Proof.
  induction 1 as [n s s' H|n s x H|n s p H|n s e s' q m H L C IH]; intros idx offset; destruct (N.leb_spec offset idx) as [K|K].
  all: try (exists (Ok (s, idx)); split; [intros [|fuel] Hf; [lia|]; cbn [skip_entries]; destruct (N.leb_spec offset idx); [reflexivity|lia]|];
    split; [exact I|]; intros ? ? [= <- <-]; left).
  - eapply course_end; exact H.
  - exists (Ok (s', idx)). split; [intros [|fuel] Hf; [lia|]; cbn [skip_entries]; destruct (N.leb_spec offset idx); [lia|]; rewrite H by lia; reflexivity|].
    split; [exact I|]. intros ? ? [= <- <-]. right. eapply course_end. intros [|fuel] Hf; [lia|].
    apply (next_entry_fuel d 1 (S fuel)); [lia|]. eapply next_end. apply (H (S n)). lia.
  - eapply course_err; exact H.
  - exists (Err x). split; [intros [|fuel] Hf; [lia|]; cbn [skip_entries]; destruct (N.leb_spec offset idx); [lia|]; rewrite H by lia; reflexivity|].
    split; [exact I|discriminate].
  - eapply course_panic; exact H.
  - exists (Panic p). split; [intros [|fuel] Hf; [lia|]; cbn [skip_entries]; destruct (N.leb_spec offset idx); [lia|]; rewrite H by lia; reflexivity|].
    split; [reflexivity|discriminate].
  - eapply course_more; eauto.
  - destruct (IH (idx + 1) offset) as (r & A & B & D). exists r. split.
    { intros [|fuel] Hf; [lia|]. cbn [skip_entries]. destruct (N.leb_spec offset idx); [lia|]. rewrite H by lia. cbn [bind]. apply A. lia. }
    split; [exact B|]. intros s2 i E. destruct (D _ _ E); [left|right]; eapply course_le; eauto; lia.
Qed.

Lemma scan_course d r : real d -> (forall p, scan_dirent_tree d r = Panic p -> returns (fun fuel => scan_all fuel d r) (Panic p)) /\ scan_dirent_tree d r <> OutOfFuel
  /\ (forall s, scan_dirent_tree d r = Ok s -> exists n q, course d n s q /\ (forall p, q = Some p -> returns (fun fuel => scan_all fuel d r) (Panic p))).
Proof.
  intros HR. split; [|split].
  - intros p E. exists 0%nat. intros fuel _. unfold scan_all. rewrite E. reflexivity.
  - unfold scan_dirent_tree. destruct (region_is_empty r) eqn:E0; [discriminate|].
    unfold region_is_empty in E0. apply N.eqb_neq in E0. rewrite region_offset_ok by lia. cbn [bind].
    pose proof (HR (2048 * r_sector r + 0) 2048) as H0. destruct (d (2048 * r_sector r + 0) 2048); cbn; congruence.
  - intros s E. assert (X : exists n q, course d n s q).
    { unfold scan_dirent_tree in E. destruct (region_is_empty r) eqn:E0.
      - injection E as <-. exists 0%nat, None. eapply course_end. intros fuel _. reflexivity.
      - unfold region_is_empty in E0. apply N.eqb_neq in E0. rewrite region_offset_ok in E by lia. cbn [bind] in E.
        apply bind_ok in E as (b & _ & [= <-]).
        destruct (course_total d HR (scan_measure (mkScan (r_sector r) b 0 (r_sector r + (r_size r + 2047) / 2048))) (mkScan (r_sector r) b 0 (r_sector r + (r_size r + 2047) / 2048))) as (q & Q); [intros _; cbn; lia|cbn; lia|reflexivity|reflexivity|eauto]. }
    destruct X as (n & q & Q). exists n, q. split; [exact Q|]. intros p ->. exists (S n). intros fuel Hf. unfold scan_all. rewrite E. cbn [bind].
    eapply course_collect; eauto.
Qed.

Lemma readdir_ends fs ino offset full : real (m_dev fs) ->
  exists fs' r, returns (fun fuel => fuse_readdir fuel fs ino offset full) (fs', r) /\ r <> OutOfFuel
    /\ (forall p, r = Panic p -> exists t, dirtab_by_inode fs ino = Some t /\ returns (fun fuel => scan_all fuel (m_dev fs) t) (Panic p)).
Proof.
  intros HR. unfold fuse_readdir. destruct (dirtab_by_inode fs ino) as [t|].
  2:{ exists fs, (Err ENOTDIR). split; [exists 0%nat; reflexivity|]. split; [discriminate|]. discriminate. }
  destruct (scan_course (m_dev fs) t HR) as (A & B & C).
  destruct (scan_dirent_tree (m_dev fs) t) as [s|x|p|] eqn:E; [| | |congruence]; cbn [eio].
  2:{ exists fs, (Err EIO). split; [exists 0%nat; reflexivity|]. split; discriminate. }
  2:{ exists fs, (Panic p). split; [exists 0%nat; reflexivity|]. split; [discriminate|]. intros q [= <-]. exists t. split; [reflexivity|apply A; reflexivity]. }
  cbv zeta. destruct (C s eq_refl) as (n & q & Q & HP).
  destruct ((offset =? 0) && full [] _)%bool; [exists fs, (Err EIO); split; [exists 0%nat; reflexivity|]; split; discriminate|].
  set (l0 := if offset =? 0 then _ else _). destruct ((offset <=? 1) && full l0 _)%bool; [exists fs, (Err EIO); split; [exists 0%nat; reflexivity|]; split; discriminate|].
  set (l1 := if offset <=? 1 then _ else _).
  destruct (skip_ends _ _ _ _ Q 2 offset) as (r & S1 & S2 & S3).
  destruct r as [[s' i]|x|p|]; [| | |contradiction].
  - assert (X : exists q', course (m_dev fs) n s' q' /\ (q' = q \/ q' = None)) by (destruct (S3 _ _ eq_refl); eauto).
    destruct X as (q' & Q' & D). destruct (fill_ends _ _ _ _ Q' full i (m_cache fs) l1) as (c' & y & F1 & F2).
    exists (with_cache fs c'), (eio y). split; [exists (S n); intros fuel Hf; rewrite S1 by lia; cbn [eio]; rewrite F1 by lia; reflexivity|].
    destruct y as [y|x|p|]; cbn [eio may] in *; [split; discriminate|split; discriminate| |contradiction].
    split; [discriminate|]. intros p' [= <-]. exists t. split; [reflexivity|]. apply HP. destruct D as [<-|D]; congruence.
  - exists fs, (Err EIO). split; [exists (S n); intros fuel Hf; rewrite S1 by lia; reflexivity|]. split; discriminate.
  - exists fs, (Panic p). split; [exists (S n); intros fuel Hf; rewrite S1 by lia; reflexivity|]. split; [discriminate|].
    intros p' [= <-]. exists t. split; [reflexivity|]. apply HP. exact S2.
Qed.

Lemma mounted_dev_ok file fs : mounted file fs -> calm (m_dev fs) /\ lawful (m_dev fs) /\ real (m_dev fs).
Proof.
  intros M. apply mounted_good in M as (_ & d & v & O & _ & -> & _). pose proof (open_image_calm _ _ O) as C.
  split; [exact C|]. split; [eapply open_image_lawful; eauto|apply calm_real, C].
Qed.

Lemma np_answer {E A} (r : res E A) : ~ panics r -> r <> OutOfFuel -> answer r.
Proof. destruct r; cbn; auto. intros H _. apply H. unfold panics. eauto. Qed.

Lemma open_image_real file : open_image file <> OutOfFuel.
Proof.
  unfold open_image. enough (X : offset_wrapper_new (file_dev file) <> OutOfFuel) by (destruct (offset_wrapper_new _); cbn; congruence).
  unfold offset_wrapper_new. generalize XDVD_OFFSETS.
  induction l as [|o os IH]; cbn [probe]; [discriminate|].
  pose proof (read_volume_real (offset_dev (file_dev file) o) (calm_real _ (offset_calm _ _ (file_calm _)))) as V.
  destruct (read_volume _); congruence.
Qed.
Lemma mount_answer file : answer (mount_new file).
Proof.
  apply np_answer.
  - unfold mount_new. destruct (open_image file) as [d|e|p|] eqn:O; cbn [bind]; try (intros (q & Q); discriminate).
    + pose proof (read_volume_np d (open_image_calm _ _ O)) as N. destruct (read_volume d); cbn [bind]; try (intros (q & Q); discriminate).
      exfalso. apply N. unfold panics. eauto.
    + exfalso. apply (open_image_np file). rewrite O. unfold panics. eauto.
  - unfold mount_new. pose proof (open_image_real file) as R. destruct (open_image file) as [d|e|p|] eqn:O; cbn [bind]; try congruence.
    pose proof (read_volume_real d (calm_real _ (open_image_calm _ _ O))). destruct (read_volume d); cbn; congruence.
Qed.

Lemma getattr_answer fs ino : answer (fuse_getattr fs ino).
Proof. unfold fuse_getattr. destruct (dirent_by_inode fs ino); exact I. Qed.
Lemma open_answer flags : answer (fuse_open flags).
Proof. unfold fuse_open. destruct (_ =? 0); exact I. Qed.
Lemma read_data_offset_real d x n o : real d -> read_data_offset d x n o <> OutOfFuel.
Proof.
  intros R. unfold read_data_offset, region_offset. destruct (_ =? 0); [discriminate|]. cbv zeta.
  repeat match goal with |- context [if ?b then _ else _] => destruct b; cbn [bind]; try discriminate end.
  all: match goal with |- context [io (?dd ?a ?b)] => pose proof (R a b); destruct (dd a b); cbn; congruence end.
Qed.
Lemma read_answer file fs ino offset size : mounted file fs -> answer (fuse_read fs ino offset size).
Proof.
  intros M. destruct (mounted_dev_ok _ _ M) as (C & _ & R). unfold fuse_read. destruct (dirent_by_inode fs ino) as [e| |]; try exact I.
  pose proof (read_data_offset_np (m_dev fs) C (d_dirent (e_node e)) size offset) as N.
  pose proof (read_data_offset_real (m_dev fs) (d_dirent (e_node e)) size offset R) as F.
  destruct (read_data_offset _ _ _ _); cbn; auto. apply N. unfold panics. eauto.
Qed.

Lemma component_slashes n : component n -> ~ only_slashes n.
Proof. intros (A & B) (k & ->). apply B. left. reflexivity. Qed.

Lemma lookup_replies file fs parent name r : mounted file fs -> component name -> dirtab_by_inode fs parent = Some r ->
  (replies (fun fuel => fuse_lookup fuel fs parent name) <-> ~ circles (m_dev fs) r [name]).
Proof.
  intros M K D. destruct (mounted_dev_ok _ _ M) as (C & L & R).
  unfold fuse_lookup. rewrite D. split.
  - intros (fs' & x & (n & H) & A) Z. apply (circles_hang _ L _ _ Z 0%nat); [discriminate|]. exists n. intros k Hk.
    rewrite Nat.add_0_l, <- (walk_path_segs k (m_dev fs) r [name] name (component_path _ K)). intros E. specialize (H k Hk). cbn beta in H. rewrite E in H. cbn [eio] in H.
    injection H as _ <-. exact A.
  - intros Z. apply (c118_lookup (m_dev fs) r [name] name L R (component_path _ K)) in Z. revert Z.
    intros (o & O & n & H).
    assert (P : ~ panics o). { rewrite <- (H n (le_n n)). intros P. apply (walk_path_np (m_dev fs) C) in P. exact (component_slashes _ K P). }
    destruct o as [e|e|p|]; [| | |congruence].
    + destruct (get_or_assign (m_cache fs) e) as [c i] eqn:G. eexists _, (Ok _). split; [|exact I]. exists n. intros fuel Hf. rewrite H by exact Hf. cbn [eio]. rewrite G. reflexivity.
    + exists fs, (Err EIO). split; [|exact I]. exists n. intros fuel Hf. rewrite H by exact Hf. reflexivity.
    + exfalso. apply P. unfold panics. eauto.
Qed.

(** ** Witnesses *)
Definition offset0 (img : list byte) : dev := offset_dev (file_dev img) 0.
Lemma offset0_ext img o n : file_dev img o n = offset0 img o n.
Proof. unfold offset0, offset_dev. rewrite N.add_0_r. reflexivity. Qed.
Lemma mount_at img r : offset_wrapper_new (file_dev img) = Ok 0 -> (match read_volume (offset0 img) with Ok v => v_root v = r | _ => False end) ->
  mounted img (mkMount (offset0 img) r cache_new).
Proof.
  intros O V. eexists. split; [|apply rq_none]. unfold mount_new, open_image. rewrite O. cbn [bind]. fold (offset0 img).
  destruct (read_volume (offset0 img)) as [v| | |]; try contradiction. cbn [bind]. rewrite V. reflexivity.
Qed.
Definition loop_mount : mount := mkMount (offset0 loop_img) root33 cache_new.
Lemma loop_mounted : mounted loop_img loop_mount.
Proof. apply mount_at; vm_compute; reflexivity. Qed.
Lemma loop_silent fuel : snd (fuse_lookup fuel loop_mount 1 [65]) = OutOfFuel.
Proof.
  assert (X : walk_path fuel (m_dev loop_mount) root33 [65] = OutOfFuel)
    by (rewrite <- (loop_lookup fuel); symmetry; apply (walk_path_ext _ _ (offset0_ext loop_img))).
  unfold fuse_lookup. change (dirtab_by_inode loop_mount 1) with (Some root33). cbn iota beta. rewrite X. reflexivity.
Qed.
Definition cross_mount : mount := mkMount (offset0 cross_img) root33 cache_new.
Lemma cross_mounted : mounted cross_img cross_mount.
Proof. apply mount_at; vm_compute; reflexivity. Qed.

Lemma readdir_replies file fs ino offset full : mounted file fs -> (forall t, dirtab_by_inode fs ino = Some t -> ~ crossing (m_dev fs) t) ->
  replies (fun fuel => fuse_readdir fuel fs ino offset full).
Proof.
  intros M X. destruct (mounted_dev_ok _ _ M) as (C & L & R). destruct (readdir_ends fs ino offset full R) as (fs' & r & A & B & D).
  exists fs', r. split; [exact A|]. destruct r as [a|e|p|]; cbn; auto. destruct (D p eq_refl) as (t & T & S1).
  apply (c33_exact _ _ _ L C) in S1 as (_ & k & b & K & K1 & K2 & _). apply (X t T). exists k, b. auto.
Qed.
Lemma readdir_total file fs ino offset full : mounted file fs -> ends (fun fuel => fuse_readdir fuel fs ino offset full).
Proof.
  intros M. destruct (mounted_dev_ok _ _ M) as (C & L & R). destruct (readdir_ends fs ino offset full R) as (fs' & r & A & B & D).
  exists fs', r. auto.
Qed.
Lemma lookup_nowhere fs parent name : dirtab_by_inode fs parent = None -> replies (fun fuel => fuse_lookup fuel fs parent name).
Proof. intros D. exists fs, (Err ENOTDIR). split; [|exact I]. exists 0%nat. intros fuel _. unfold fuse_lookup. rewrite D. reflexivity. Qed.
Lemma lookup_answered file fs parent name : mounted file fs -> component name ->
  (replies (fun fuel => fuse_lookup fuel fs parent name) <-> forall t, dirtab_by_inode fs parent = Some t -> ~ circles (m_dev fs) t [name]).
Proof.
  intros M K. destruct (dirtab_by_inode fs parent) as [r|] eqn:D.
  - rewrite (lookup_replies file fs parent name r M K D). split; [intros H t [= <-]; exact H|intros H; apply H; reflexivity].
  - split; [intros _ t; discriminate|intros _; apply lookup_nowhere; exact D].
Qed.
