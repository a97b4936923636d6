(** More about packed images: regions found by lookups, the sector scan, exactly
    which trees can be packed. *)
From Verif Require Import M_Base M_Util M_Layout M_Avl M_Sector M_Dirtab M_Read M_Img.
From Verif Require Import S_Avl S_Codec S_Table S_Read S_Img.
From Verif Require Import P_Base P_Codec P_Place P_Dirtab P_Table P_Find P_Read P_Witness P_Map P_Tree P_Tabs P_Scan P_Disk P_Plan P_Pack P_Run P_Bytes P_Image P_File P_Back P_Packed P_Param.
From Coq Require Import Init.Byte Permutation Sorted Lia.
Local Open Scope N_scope.

(** ** Lookups are functions *)
Lemma strictly_sorted_eq {T} (cmp : T -> T -> comparison) l a b : strictly_sorted cmp l -> In a l -> In b l ->
  cmp a b <> Lt -> cmp b a <> Lt -> a = b.
Proof.
  unfold strictly_sorted. induction 1 as [|x l H IH HF]; intros Ha Hb H1 H2; [destruct Ha|]. rewrite Forall_forall in HF.
  destruct Ha as [<-|Ha], Hb as [<-|Hb].
  - reflexivity.
  - exfalso. apply H1. auto.
  - exfalso. apply H2. auto.
  - apply IH; auto.
Qed.

Lemma directory_entries d r T T' : lawful d -> directory d r T -> directory d r T' -> Permutation (inorder T) (inorder T').
Proof.
  intros HL H1 H2. set (n := S (Nat.max (size T) (size T'))).
  pose proof (walk_tree_dir d r T n HL H1 ltac:(lia)) as E1. pose proof (walk_tree_dir d r T' n HL H2 ltac:(lia)) as E2.
  rewrite E1 in E2. injection E2 as E2. rewrite <- (rpre_perm T), <- (rpre_perm T'), E2. reflexivity.
Qed.

Lemma dir_find_fun d r T T' s e e' : lawful d -> directory d r T -> directory d r T' ->
  In e (inorder T) -> In e' (inorder T') -> same_name s (name_str e) -> same_name s (name_str e') -> e = e'.
Proof.
  intros HL H1 H2 I1 I2 N1 N2. apply (Permutation_in _ (Permutation_sym (directory_entries d r T T' HL H1 H2))) in I2.
  destruct H1 as (_ & HS). eapply strictly_sorted_eq; [exact HS|exact I1|exact I2| |].
  - assert (E : cmp_ignore_case_utf8 (name_str e) (name_str e') = Eq).
    { apply same_name_iff. eapply same_name_trans; [apply same_name_sym; exact N1|exact N2]. }
    cbv beta. rewrite E. discriminate.
  - assert (E : cmp_ignore_case_utf8 (name_str e') (name_str e) = Eq).
    { apply same_name_iff. eapply same_name_trans; [apply same_name_sym; exact N2|exact N1]. }
    cbv beta. rewrite E. discriminate.
Qed.

Lemma lookup_fun d r p e : lawful d -> lookup d r p (Ok e) -> forall e', lookup d r p (Ok e') -> e = e'.
Proof.
  intros HL H. remember (Ok e) as o eqn:Eo. revert e Eo.
  induction H as [| |r T s e HD HI HN| |r T s e segs o HD HI HN HS HF HK IH]; intros e0 Eo e' H'; try discriminate.
  - injection Eo as <-. inversion H' as [| |? T' ? ? HD' HI' HN'| |? T' ? e1 ? ? HD' HI' HN' HS']; subst; [|congruence].
    eapply dir_find_fun; [exact HL|exact HD|exact HD'| | |exact HN|exact HN']; auto.
  - inversion H' as [| |? T' ? ? HD' HI' HN'| |? T' ? e1 ? ? HD' HI' HN' HS' HF' HK']; subst; [congruence|].
    assert (e = e1) by (eapply dir_find_fun; [exact HL|exact HD|exact HD'| | |exact HN|exact HN']; auto). subst e1. eapply IH; eauto.
Qed.

Lemma region_at_fun d root p r r' : lawful d -> region_at d root p r -> region_at d root p r' -> r = r'.
Proof.
  intros HL [(-> & ->)|(e & H & ->)] [(E & ->)|(e' & H' & ->)]; auto.
  - inversion H'.
  - subst p. inversion H.
  - f_equal. eapply lookup_fun; eauto.
Qed.

(** ** Regions of a packed image *)
Section Regions.
Variables (m : build) (t : ftree) (pls : list placed) (rs : N).
Hypothesis HP : proper t.
Hypothesis HL : laid m t pls rs.
Notation img := (final t pls rs).
Notation d := (file_dev (final t pls rs)).
Notation root := (mkRegion 33 rs).

Lemma final_view q off b : In (q, (off, b)) (wl t pls) -> b <> [] -> view d off b.
Proof. intros Hin Hne. unfold final, pad. eapply body_view; eauto. Qed.

Lemma region_of_reg p t' : at_path t p t' -> exists r, region_at d root p r /\ In (p, (r_sector r, r_size r)) (regs rs pls).
Proof.
  intros Hat. destruct p as [|n p].
  - exists root. split; [left; auto|left; reflexivity].
  - destruct (lookup_region m t pls rs HP HL d final_view t (n :: p) t' Hat ltac:(discriminate) [] 33 rs (at_here _) (or_introl eq_refl)) as (e & L & _ & _ & E3).
    exists (region_of e). split; [right; exists e; auto|exact E3].
Qed.

Lemma region_reg p t' r : at_path t p t' -> region_at d root p r -> In (p, (r_sector r, r_size r)) (regs rs pls).
Proof.
  intros Hat Hr. destruct (region_of_reg p t' Hat) as (r' & H1 & H2).
  rewrite (region_at_fun d root p r r'); auto. apply file_lawful.
Qed.

Lemma reg_region p t' s n : at_path t p t' -> In (p, (s, n)) (regs rs pls) -> region_at d root p (mkRegion s n).
Proof.
  intros Hat Hin. destruct (region_of_reg p t' Hat) as ([s' n'] & H1 & H2). cbn [r_sector r_size] in H2.
  pose proof (reg_fun m t pls rs HP HL _ _ _ Hin H2) as [= -> ->]. exact H1.
Qed.

Lemma row_names q cs es : Forall2 (row_ok pls rs q) cs es -> map name_str es = map fst cs.
Proof. induction 1 as [|c e cs es (H1 & _) HF IH]; cbn; [reflexivity|]. rewrite H1, IH. reflexivity. Qed.

Lemma scan_walk p cs r : at_path t p (FDir cs) -> region_at d root p r ->
  exists es ws, returns (fun fuel => scan_all fuel d r) (Ok es) /\ returns (fun fuel => walk_dirent_tree fuel d r) (Ok ws)
    /\ Permutation (map record_of es) (map record_of ws) /\ Permutation (map name_str ws) (map fst cs).
Proof.
  intros Hat Hr. pose proof (region_reg p _ r Hat Hr) as Hin. destruct r as [s n]. cbn [r_sector r_size] in Hin.
  destruct (dir_view m t pls rs HP HL d final_view p cs s n Hat Hin) as (T & es & T1 & T2 & T3 & T4 & _).
  exists (map in_sector (preorder T)), (rpre T). split; [apply T4; apply file_lawful|]. split; [|split].
  - exists (S (size T)). intros fuel Hf. apply walk_tree_dir; auto. apply file_lawful.
  - rewrite map_map. rewrite (rpre_perm T), <- (preorder_perm T). cbn. reflexivity.
  - rewrite (rpre_perm T), <- T2. rewrite (row_names _ _ _ T3). reflexivity.
Qed.
End Regions.

Lemma packed_form m t img v : source t -> packs m t img -> read_volume (file_dev img) = Ok v ->
  exists pls rs, laid m t pls rs /\ img = final t pls rs /\ v_root v = mkRegion 33 rs.
Proof.
  intros Hs Hp Hv. destruct (packs_final m t img Hs Hp) as (pls & rs & HL & ->). exists pls, rs. ssplit; auto.
  destruct Hs as (_ & HP & _). destruct (final_volume m t pls rs HP HL) as (v' & H1 & H2). rewrite Hv in H1. injection H1 as <-. exact H2.
Qed.

Lemma c18_lemma m t img v p cs : source t -> packs m t img -> read_volume (file_dev img) = Ok v -> at_path t p (FDir cs) ->
  exists r, region_at (file_dev img) (v_root v) p r /\
  exists es ws, returns (fun fuel => scan_all fuel (file_dev img) r) (Ok es)
    /\ returns (fun fuel => walk_dirent_tree fuel (file_dev img) r) (Ok ws)
    /\ Permutation (map record_of es) (map record_of ws) /\ Permutation (map name_str ws) (map fst cs).
Proof.
  intros Hs Hp Hv Hat. destruct (packed_form m t img v Hs Hp Hv) as (pls & rs & HL & -> & ->). destruct Hs as (_ & HP & _).
  destruct (region_of_reg m t pls rs HP HL p _ Hat) as (r & H1 & _). exists r. split; auto. eapply scan_walk; eauto.
Qed.

Lemma c18_unique img v p r r' : region_at (file_dev img) (v_root v) p r -> region_at (file_dev img) (v_root v) p r' -> r = r'.
Proof. apply region_at_fun. apply file_lawful. Qed.

(** ** Exactly the representable trees *)
Lemma laid_representable m t pls rs : proper t -> dirs_small t -> is_fdir t = true -> laid m t pls rs -> representable m t.
Proof.
  intros HP Hsm Ht HL.
  assert (Hall : all_tabs m t).
  { intros q cs Hat. destruct (pl_exists m t pls rs HL q cs Hat) as (pl & Hpl & Eq).
    pose proof (ld_ok _ _ _ _ HL) as HF. rewrite Forall_forall in HF. destruct (HF _ Hpl) as [_ (xs & D & sz & F1 & F2 & F3 & F4 & F5 & F6 & F7 & F8 & F9)].
    rewrite Eq, (cs_at_eq _ _ _ HP Hat) in *. exists (pl_writer pl), sz. split; [exact F5|]. split; [exact F6|]. split; [lia|]. split; [lia|].
    apply tab_ok_iff in F5 as (ys & w0 & Y1 & Y2 & Y3). exists ys, w0, (pl_writer pl). ssplit; auto. eapply itemized_names; eauto. }
  assert (Hd : forall q cs, at_path t q (FDir cs) -> exists xs w0 w sz, itemized m cs xs /\ add_items m xs = Ok w0 /\ compute_size m w0 = Ok w
     /\ @dirtab_size fserr w = Ok sz /\ sz <= 262144 /\ Forall encodable xs /\ distinct xs).
  { intros q cs Hat. destruct (pl_exists m t pls rs HL q cs Hat) as (pl & Hpl & Eq).
    pose proof (ld_ok _ _ _ _ HL) as HF. rewrite Forall_forall in HF. destruct (HF _ Hpl) as [_ (xs & D & sz & F1 & F2 & F3 & F4 & F5 & F6 & F7 & F8 & F9)].
    rewrite Eq, (cs_at_eq _ _ _ HP Hat) in *. pose proof F5 as F5'. apply tab_ok_iff in F5 as (ys & w0 & Y1 & Y2 & Y3).
    exists ys, w0, (pl_writer pl), sz.
    assert (Hf : Forall size_fits ys).
    { eapply tab_fits; [eapply all_tabs_sub; eauto|exact F5'|exact Y1]. }
    assert (Hlen : 544 * len ys < u32_modulus).
    { rewrite (itemized_len _ _ _ Y1). pose proof (Hsm q cs Hat) as X. cbn beta in X. unfold u32_modulus. lia. }
    destruct (built_table m ys w0 (pl_writer pl) Y2 Y3 Hf Hlen) as (d & o & B1 & B2 & B3 & B4 & B5 & B6 & B7 & _).
    ssplit; auto. lia. }
  unfold representable. split; [|split; [|split]].
  - intros n s (p & cs & Hat & Hin). destruct (Hd p cs Hat) as (xs & w0 & w & sz & I1 & I2 & I3 & I4 & I5 & I6 & I7).
    destruct (itemized_fwd _ _ _ _ I1 Hin) as (x & Hx & Hi). pose proof (item_name _ _ _ Hi) as Hnm. cbn [fst] in Hnm.
    rewrite Forall_forall in I6. destruct (I6 x Hx) as (E1 & bs & E2). rewrite Hnm in *. split; [lia|].
    intros c Hc. rewrite <- E2 in Hc. unfold decode_1252 in Hc. apply in_map_iff in Hc as (b & Hb & _). exists b. exact Hb.
  - intros p cs Hat n1 n2 H1 H2 Hsame. destruct (Hd p cs Hat) as (xs & w0 & w & sz & I1 & I2 & I3 & I4 & I5 & I6 & I7).
    rewrite <- (itemized_names _ _ _ I1) in H1, H2. apply in_map_iff in H1 as (x1 & <- & H1). apply in_map_iff in H2 as (x2 & <- & H2).
    f_equal. clear -I7 H1 H2 Hsame. induction xs as [|x xs IH]; [destruct H1|]. destruct I7 as (D1 & D2).
    destruct H1 as [<-|H1], H2 as [<-|H2]; auto; exfalso.
    + apply (D1 x2 H2). unfold item_cmp. apply same_name_iff in Hsame. rewrite Hsame. reflexivity.
    + apply (D1 x1 H1). unfold item_cmp. apply same_name_sym in Hsame. apply same_name_iff in Hsame. rewrite Hsame. reflexivity.
  - intros p b Hat. destruct (list_snoc p) as [->|(q & n & ->)].
    { inversion Hat; subst. discriminate. }
    apply at_unsnoc in Hat as (cs & Hat & Hin). destruct (Hd q cs Hat) as (xs & w0 & w & sz & I1 & _).
    destruct (itemized_fwd _ _ _ _ I1 Hin) as (x & Hx & Hi). unfold item_of in Hi. cbn [fst snd] in Hi.
    apply bind_ok in Hi as (s & Hs & _). rewrite try_into_spec in Hs. destruct (N.ltb_spec (len b) u32_modulus); [assumption|discriminate].
  - intros p cs Hat s Hs. destruct (Hd p cs Hat) as (xs & w0 & w & sz & I1 & I2 & I3 & I4 & I5 & _).
    rewrite (table_size_fun m cs s sz Hs); [exact I5|]. exists xs, w0, w. ssplit; auto. eapply itemized_names; eauto.
Qed.

Lemma c19_lemma m t fs evs : source t -> presents fs t -> copies fs t ->
  exists img evs' o, returns (fun fuel => create_xdvdfs_image fuel m file_wdev fs ([], evs)) ((img, evs'), o)
   /\ (representable m t /\ o = Ok tt
       \/ ~ representable m t /\ exists e, o = Err (InvalidFileStructureError e) /\ reason m t e).
Proof.
  intros (Ht & HP & Hs) Hp Hc. destruct (pack_file m t HP Hs Ht) as [(pls & rs & HL & H)|(e & img' & es & Hr & H)].
  - do 3 eexists. split; [exists (S (length (dirs [] t))); intros fuel Hf; apply H; auto; lia|]. left. split; auto.
    eapply laid_representable; eauto. apply Hs.
  - do 3 eexists. split; [exists (S (length (dirs [] t))); intros fuel Hf; apply H; auto; lia|]. right. split; [eapply reason_not; eauto|]. eauto.
Qed.

(** ** The host file system *)
Lemma std_copies t : proper t -> copies (std_fs t) t.
Proof.
  intros HP p b img off Hat. apply lookup_at in Hat; auto. cbn. unfold std_copy_file. rewrite Hat.
  pose proof (slice_app_l b []) as X. rewrite app_nil_r in X. rewrite X. reflexivity.
Qed.

Lemma every_dir_file P b : every_dir P (FFile b).
Proof. intros p cs H. inversion H. Qed.
Lemma every_dir_node (P : list (str * ftree) -> Prop) cs : P cs -> Forall (fun c => every_dir P (snd c)) cs -> every_dir P (FDir cs).
Proof.
  intros H1 H2 p cs' H. inversion H as [|? n t q t' Hin Hq]; subst; auto. rewrite Forall_forall in H2. apply (H2 _ Hin _ _ Hq).
Qed.

Lemma c14_readable m t img : source t -> packs m t img -> readable (file_dev img) t.
Proof. exact (c14_lemma m t img). Qed.

(** Any run of the host file system. *)
Lemma std_packs m t fuel evs : source t -> snd (create_xdvdfs_image fuel m file_wdev (std_fs t) ([], evs)) = Ok tt ->
  packs m t (fst (fst (create_xdvdfs_image fuel m file_wdev (std_fs t) ([], evs)))).
Proof.
  intros (_ & HP & _) H. destruct (create_xdvdfs_image fuel m file_wdev (std_fs t) ([], evs)) as [[img evs'] o] eqn:E. cbn [fst snd] in *. subst o.
  exists (std_fs t), fuel, evs, evs'. ssplit; auto; [apply std_presents; auto|apply std_copies; auto].
Qed.
