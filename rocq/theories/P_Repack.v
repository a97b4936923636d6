(** Packing from a packed image (C40). *)
From Verif Require Import M_Base M_Util M_Layout M_Avl M_Sector M_Dirtab M_Read M_Img M_Dev M_Trie M_Xfs.
From Verif Require Import S_Avl S_Codec S_Table S_Read S_Img S_Dev S_Trie S_Xfs.
From Verif Require Import P_Base P_Bytes P_Dirtab P_Witness P_Scan P_Tree P_Pack P_Image P_Packed P_File P_Run P_More P_Order P_Dev P_Trie P_Xfs.
From Coq Require Import Init.Byte Permutation Lia.
Local Open Scope N_scope.

(** ** Trees that differ only in order *)
Lemma F2_perm {A B} (P : A -> B -> Prop) l1 l2 : Permutation l1 l2 -> forall l1', Forall2 P l1 l1' -> exists l2', Permutation l1' l2' /\ Forall2 P l2 l2'.
Proof.
  induction 1 as [|x l1 l2 HP IH|x y l|l1 l2 l3 H1 IH1 H2 IH2]; intros l1' HF.
  - inversion HF; subst. exists []. split; constructor.
  - inversion HF as [|? y ? l1'' Hx HF']; subst. destruct (IH _ HF') as (l2' & H1 & H2). exists (y :: l2'). split; constructor; auto.
  - inversion HF as [|? a ? l1'' Ha HF']; subst. inversion HF' as [|? b ? l2'' Hb HF'']; subst. exists (b :: a :: l2''). split; [constructor|]. constructor; auto.
  - destruct (IH1 _ HF) as (l2' & A1 & A2). destruct (IH2 _ A2) as (l3' & B1 & B2). exists l3'. split; [etransitivity; eauto|exact B2].
Qed.
Lemma F2_swap {A B} (P : A -> B -> Prop) l l' : Forall2 P l l' -> Forall2 (fun b a => P a b) l' l.
Proof. induction 1; constructor; auto. Qed.

Lemma same_fsts cs ds : same_tree (FDir cs) (FDir ds) -> Permutation (map fst cs) (map fst ds).
Proof.
  inversion 1 as [|? ? ds' HP HF]; subst. transitivity (map fst ds'); [|apply Permutation_map; symmetry; exact HP].
  clear HP H. induction HF as [|c d l l' (E & _) HF IH]; cbn; [constructor|]. rewrite E. constructor. exact IH.
Qed.
Lemma same_len cs ds : same_tree (FDir cs) (FDir ds) -> len ds = len cs.
Proof. intros H. apply same_fsts, Permutation_length in H. rewrite !map_length in H. unfold len. rewrite H. reflexivity. Qed.
Lemma same_file_r a b : same_tree a (FFile b) -> a = FFile b.
Proof. inversion 1; reflexivity. Qed.
Lemma same_dir_r a ds : same_tree a (FDir ds) -> exists cs, a = FDir cs.
Proof. inversion 1; eauto. Qed.

Lemma same_at_back t' p a' : at_path t' p a' -> forall t, same_tree t t' -> exists a, at_path t p a /\ same_tree a a'.
Proof.
  induction 1 as [t'|ds n t' p a' Hin Hat IH]; intros t Hs; [exists t; split; [constructor|exact Hs]|].
  destruct (same_dir_r _ _ Hs) as (cs & ->). destruct (same_child_back _ _ _ _ Hs Hin) as (s & H1 & H2).
  destruct (IH _ H2) as (a & H3 & H4). exists a. split; [econstructor; eauto|exact H4].
Qed.

Lemma sum_perm (f : str * ftree -> N) l l' : Permutation l l' -> fold_right (fun c n => f c + n) 0 l = fold_right (fun c n => f c + n) 0 l'.
Proof. induction 1; cbn [fold_right]; lia. Qed.

Lemma same_budget t : forall t', same_tree t t' -> budget t' = budget t.
Proof.
  induction t as [b|cs IH] using ftree_rect'; intros t' H; [apply same_file_l in H as ->; reflexivity|].
  destruct (same_fdir_l _ _ H) as (ds & ->). cbn [budget]. rewrite (same_len _ _ H). f_equal.
  inversion H as [|? ? ds' HP HF]; subst. rewrite (sum_perm (fun c => budget (snd c)) _ _ HP). clear HP H.
  induction HF as [|c d l l' (_ & E) HF IHF]; [reflexivity|]. apply Forall_cons_iff in IH as (IH1 & IH2). cbn [fold_right]. rewrite (IH1 _ E), IHF by exact IH2. reflexivity.
Qed.

Lemma same_source t t' : same_tree t t' -> source t -> source t'.
Proof.
  intros H (Ht & HP & Hd & Hb). split; [rewrite <- (same_kind _ _ H); exact Ht|]. split; [|split].
  - intros p ds Hat. destruct (same_at_back _ _ _ Hat _ H) as (a & H1 & H2). destruct (same_dir_r _ _ H2) as (cs & ->).
    eapply Permutation_NoDup; [apply same_fsts; exact H2|]. apply (HP p cs H1).
  - intros p ds Hat. destruct (same_at_back _ _ _ Hat _ H) as (a & H1 & H2). destruct (same_dir_r _ _ H2) as (cs & ->).
    rewrite (same_len _ _ H2). apply (Hd p cs H1).
  - rewrite (same_budget _ _ H). exact Hb.
Qed.

Lemma same_entry t t' n s' : same_tree t t' -> entry_in t' n s' -> exists s, entry_in t n s.
Proof.
  intros H (p & ds & Hat & Hin). destruct (same_at_back _ _ _ Hat _ H) as (a & H1 & H2). destruct (same_dir_r _ _ H2) as (cs & ->).
  destruct (same_child_back _ _ _ _ H2 Hin) as (s & H3 & _). exists s, p, cs. auto.
Qed.
Lemma same_latin t t' : same_tree t t' -> latin_tree t -> latin_tree t'.
Proof. intros H HL n s' Hin. destruct (same_entry _ _ _ _ H Hin) as (s & Hs). eapply HL; eauto. Qed.

(** The only obstacle that the order can create is the size of a table. *)
Lemma same_reason m m' t t' e : same_tree t t' -> representable m t -> reason m' t' e -> e = TooManyDirectoryEntries.
Proof.
  intros H (R1 & R2 & R3 & _) Hr. destruct e; auto; exfalso; cbn [reason] in Hr.
  - destruct Hr as (n & s' & c & Hin & Hc & Hne). destruct (same_entry _ _ _ _ H Hin) as (s & Hs). destruct (R1 n s Hs) as (_ & R). apply Hne, R, Hc.
  - destruct Hr as (n & s' & Hin & Hl). destruct (same_entry _ _ _ _ H Hin) as (s & Hs). destruct (R1 n s Hs). lia.
  - destruct Hr as (p & ds & n1 & n2 & Hat & H1 & H2 & Hn & Hsm). destruct (same_at_back _ _ _ Hat _ H) as (a & A1 & A2). destruct (same_dir_r _ _ A2) as (cs & ->).
    apply Hn. apply (R2 p cs A1); auto; eapply Permutation_in; try (symmetry; apply same_fsts; exact A2); auto.
  - destruct Hr as (p & b & Hat & Hl). destruct (same_at_back _ _ _ Hat _ H) as (a & A1 & A2). apply same_file_r in A2 as ->.
    pose proof (R3 p b A1) as X. cbn beta in X. lia.
Qed.

Lemma same_readable d t t' : same_tree t t' -> readable d t' -> readable d t.
Proof.
  intros H (v & Hv & Hr). exists v. split; auto. intros segs path n s Hn Hp. destruct (same_names _ _ _ _ Hn _ H) as (s' & Hn' & Hs').
  destruct (Hr _ _ _ _ Hn' Hp) as (e & E1 & E2 & E3 & E4). exists e. split; [exact E1|]. split; [exact E2|]. split; [rewrite E3; symmetry; apply same_kind; exact Hs'|].
  intros b ->. apply E4. apply same_file_l in Hs'. exact Hs'.
Qed.

(** ** The scans of a packed image *)
Lemma file_supplies img off b : file_dev img off (len b) = Ok b -> supplies (file_dev img) off b.
Proof.
  intros H i n Hi Hn. unfold file_dev in *. destruct (N.eqb_spec n 0); [lia|]. destruct (N.eqb_spec (len b) 0); [lia|].
  destruct (N.leb_spec (off + len b) (len img)) as [Hl|]; [|discriminate]. injection H as H.
  destruct (N.leb_spec (off + i + n) (len img)); [|lia]. f_equal. rewrite <- H. rewrite slice_slice by lia. reflexivity.
Qed.

Lemma packed_scans m t pls rs : proper t -> laid m t pls rs -> forall t' q s n, at_path t q t' -> In (q, (s, n)) (regs rs pls) ->
  exists t'', same_tree t' t'' /\ scans (file_dev (final t pls rs)) t'' (mkRegion s n).
Proof.
  intros HP HL t'. induction t' as [b|cs IH] using ftree_rect'; intros q s n Hat Hr.
  - exists (FFile b). split; [constructor|].
    pose proof (image_tree m t pls rs HP HL (file_dev (final t pls rs)) (final_view m t pls rs HP HL) (FFile b) q s n Hat Hr) as H.
    inversion H as [? ? H1 H2|]; subst. constructor; [exact H1|]. destruct b as [|b0 b]; [intros i n' Hi Hn'; rewrite (@len_nil byte) in Hi; lia|].
    apply file_supplies. apply H2. discriminate.
  - destruct (dir_view m t pls rs HP HL (file_dev (final t pls rs)) (final_view m t pls rs HP HL) q cs s n Hat Hr) as (T & es & T1 & T2 & T3 & T4 & _).
    specialize (T4 (file_lawful _)).
    assert (T5 : Permutation es (preorder T)) by (rewrite T2; symmetry; apply preorder_perm).
    apply F2_swap in T3. destruct (F2_perm _ _ _ T5 _ T3) as (cs' & Hcs' & HF). apply F2_swap in HF.
    assert (Hd : exists ds, Forall2 (fun c d => fst c = fst d /\ same_tree (snd c) (snd d)) cs' ds
       /\ Forall2 (fun c e => name_str e = fst c /\ is_dir e = is_fdir (snd c) /\ scans (file_dev (final t pls rs)) (snd c) (region_of e)) ds (map in_sector (preorder T))).
    { assert (Hin : forall c, In c cs' -> In c cs) by (intros c Hc; eapply Permutation_in; [symmetry; exact Hcs'|exact Hc]).
      clear -HF Hin IH Hat. revert Hin. induction HF as [|c e cs' es (A & B & C) HF IHF]; intros Hin; [exists []; split; constructor|].
      destruct IHF as (ds & D1 & D2); [intros c' Hc'; apply Hin; right; exact Hc'|]. rewrite Forall_forall in IH.
      assert (Hc : In c cs) by (apply Hin; left; auto). destruct c as [nm sub]. cbn [fst snd] in *.
      destruct (IH _ Hc (from_base q nm) (r_sector (region_of e)) (r_size (region_of e))) as (sub' & S1 & S2); [eapply at_path_snoc; eauto|exact C|].
      exists ((nm, sub') :: ds). split; [constructor; [cbn; auto|exact D1]|]. cbn [map]. constructor; [|exact D2]. cbn [fst snd].
      split; [exact A|]. split; [rewrite <- (same_kind _ _ S1); exact B|]. change (region_of (in_sector e)) with (region_of e).
      destruct (region_of e) as [rs0 rn0]. exact S2. }
    destruct Hd as (ds & D1 & D2). exists (FDir ds). split; [|econstructor; eauto].
    destruct (F2_perm _ _ _ (Permutation_sym Hcs') _ D1) as (ds' & P1 & P2). econstructor; eauto.
Qed.

(** ** Packing again *)
Lemma copies_exact d t cp fs : exact_copier d cp -> copies_by d t cp fs -> copies fs t.
Proof.
  intros Hx Hc p b img off Hat. destruct (Hc p b Hat) as (off_in & H1 & H2). rewrite H2. destruct b as [|b0 b]; [reflexivity|].
  rewrite (Hx _ _ _ _ H1) by discriminate. reflexivity.
Qed.

Lemma repack_lemma m d v t cp evs : read_volume d = Ok v -> scans d t (v_root v) -> source t -> latin_tree t -> exact_copier d cp ->
  exists img evs' o, returns (fun fuel => repack fuel m file_wdev d cp ([], evs)) ((img, evs'), o)
   /\ (representable m t /\ o = Ok tt /\ packs m t img
       \/ ~ representable m t /\ exists e, o = Err (InvalidFileStructureError e) /\ reason m t e).
Proof.
  intros Hv Hs (Ht & HP & Hsm) HL Hx. destruct (scans_bound _ _ _ Hs) as (k & Hk).
  set (N0 := Nat.max k (S (length (dirs [] t)))).
  assert (Hrun : forall fuel, (N0 <= fuel)%nat -> exists fs, presents fs t /\ copies fs t /\ (length (dirs [] t) < fuel)%nat
     /\ repack fuel m file_wdev d cp ([], evs) = create_xdvdfs_image fuel m file_wdev fs ([], evs)).
  { intros fuel Hf. destruct (repack_run k d t v HP HL Hk m file_wdev cp fuel [] evs Ht ltac:(lia) ltac:(lia)) as (fs & F1 & F2 & F3).
    exists fs. split; [exact F1|]. split; [eapply copies_exact; eauto|]. split; [lia|]. unfold repack. rewrite Hv. exact F3. }
  destruct (pack_file m t HP Hsm Ht) as [(pls & rs & HLd & H)|(e & img' & es & Hr & H)].
  - do 3 eexists. split.
    + exists N0. intros fuel Hf. destruct (Hrun fuel Hf) as (fs & F1 & F2 & F3 & F4). rewrite F4. apply H; auto.
    + left. split; [eapply laid_representable; eauto; apply Hsm|]. split; [reflexivity|].
      destruct (Hrun N0 ltac:(lia)) as (fs & F1 & F2 & F3 & F4). exists fs, N0, evs. eexists. split; [exact F1|]. split; [exact F2|]. apply H; auto.
  - do 3 eexists. split.
    + exists N0. intros fuel Hf. destruct (Hrun fuel Hf) as (fs & F1 & F2 & F3 & F4). rewrite F4. apply H; auto.
    + right. split; [eapply reason_not; eauto|]. eauto.
Qed.

Lemma c40_lemma m m' t img cp evs : source t -> latin_tree t -> packs m t img -> exact_copier (file_dev img) cp ->
  exists t' img' evs' o, same_tree t t'
   /\ returns (fun fuel => repack fuel m' file_wdev (file_dev img) cp ([], evs)) ((img', evs'), o)
   /\ (o = Ok tt /\ packs m' t' img' /\ readable (file_dev img') t
       \/ o = Err (InvalidFileStructureError TooManyDirectoryEntries)
          /\ exists p cs s, at_path t' p (FDir cs) /\ table_size m' cs s /\ 262144 < s).
Proof.
  intros HS HLat Hp Hx. destruct (packs_final m t img HS Hp) as (pls & rs & HL & ->). pose proof HS as (Ht & HP & Hsm).
  destruct (final_volume m t pls rs HP HL) as (v & Hv & Hroot).
  destruct (packed_scans m t pls rs HP HL t [] 33 rs (at_here _) (or_introl eq_refl)) as (t' & Hsame & Hsc). rewrite <- Hroot in Hsc.
  destruct (repack_lemma m' _ v t' cp evs Hv Hsc (same_source _ _ Hsame HS) (same_latin _ _ Hsame HLat) Hx) as (img' & evs' & o & R1 & R2).
  exists t', img', evs', o. split; [exact Hsame|]. split; [exact R1|]. destruct R2 as [(_ & -> & Hpk)|(_ & e & -> & Hr)].
  - left. split; [reflexivity|]. split; [exact Hpk|]. eapply same_readable; [exact Hsame|]. eapply c14_lemma; [|exact Hpk]. eapply same_source; eauto.
  - right. assert (Hrep : representable m t) by (eapply laid_representable; eauto; apply Hsm).
    pose proof (same_reason m m' t t' e Hsame Hrep Hr) as ->. split; [reflexivity|]. exact Hr.
Qed.

(** ** The copiers *)
Lemma default_exact d : exact_copier d (default_copier d file_wdev).
Proof. intros b off out dest Hs _. exact (rw_loop_file d b off out Hs _ 0 dest (N.le_0_l _) (rw_fuel _)). Qed.

Lemma std_exact img base : exact_copier (offset_dev (file_dev img) base) (std_copier img base).
Proof.
  intros b off out dest Hs Hb. assert (Hl : 0 < len b) by (destruct b; [congruence|rewrite len_cons; lia]).
  pose proof (Hs 0 (len b) ltac:(lia) Hl) as H. rewrite N.add_0_r in H. unfold offset_dev, file_dev in H.
  destruct (N.eqb_spec (len b) 0); [lia|]. destruct (N.leb_spec (off + base + len b) (len img)); [|discriminate]. injection H as H.
  unfold std_copier, std_io_copy. rewrite (N.add_comm base off), H.
  pose proof (P_Disk.slice_app_l b []) as X. rewrite app_nil_r in X. rewrite X. reflexivity.
Qed.
