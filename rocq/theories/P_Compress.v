(** Compressing from an existing image (C38). *)
From Verif Require Import M_Base M_Util M_Layout M_Avl M_Sector M_Dirtab M_Read M_Img M_Dev M_Trie M_Xfs M_Lin.
From Verif Require Import S_Avl S_Codec S_Table S_Read S_Img S_Dev S_Trie S_Xfs S_Lin.
From Verif Require Import P_Base P_Codec P_Place P_Dirtab P_Table P_Find P_Read P_Witness P_Map P_Tree P_Tabs P_Scan P_Disk P_Plan P_Pack P_Run P_Bytes P_Image P_File P_Back P_Packed P_Param P_More P_Geom P_Dev P_Trie P_Xfs P_Repack P_Lin P_Order.
From Coq Require Import Init.Byte Permutation Sorted Lia.
Local Open Scope N_scope.

Lemma zero_padded_len b : len (zero_padded b) = 2048 * span (len b).
Proof. unfold zero_padded, span. rewrite len_app, len_fill. lia. Qed.
Lemma zero_padded_get b i : get (zero_padded b) i = get b i.
Proof.
  unfold zero_padded. destruct (N.lt_ge_cases i (len b)); [apply get_app_l; auto|]. rewrite get_app_r, get_fill, get_past by auto. reflexivity.
Qed.

Lemma padded_scans d t : forall r, padded d t r -> scans d t r.
Proof.
  induction t as [b|cs IH] using ftree_rect'; intros r H; inversion H as [? ? H1 H2|? ? es H1 H2]; subst.
  - constructor; auto. intros i n Hi Hn. rewrite H2 by (auto; rewrite zero_padded_len; unfold span; lia). f_equal. apply get_ext.
    + rewrite !slice_len, zero_padded_len. unfold span. lia.
    + intros j Hj. rewrite slice_len, zero_padded_len in Hj. rewrite !get_slice by lia. apply zero_padded_get.
  - econstructor; [exact H1|]. clear H1 H. induction H2 as [|c e cs es (A & B & C) HF IH2]; constructor; apply Forall_cons_iff in IH as (IHc & IH); auto.
Qed.

Lemma returns_fun {A} (f : nat -> A) x y : returns f x -> returns f y -> x = y.
Proof. intros (n & H1) (n' & H2). rewrite <- (H1 (n + n')%nat) by lia. rewrite <- (H2 (n + n')%nat) by lia. reflexivity. Qed.

Lemma first_named_pad k d cs es n s : NoDup (map fst cs) ->
  Forall2 (fun c e => name_str e = fst c /\ is_dir e = is_fdir (snd c) /\ scans_n k d (snd c) (region_of e)) cs es ->
  Forall2 (fun c e => name_str e = fst c /\ is_dir e = is_fdir (snd c) /\ padded d (snd c) (region_of e)) cs es -> In (n, s) cs ->
  exists e, first_named n es = Some e /\ scans_n k d s (region_of e) /\ padded d s (region_of e).
Proof.
  intros HN HF HF2 Hin. induction HF as [|[n' s'] e cs es (A & B & C) HF IH]; [destruct Hin|]. inversion HF2 as [|? ? ? ? (A' & B' & C') HF2']; subst.
  cbn [fst snd map] in *. inversion HN as [|? ? Hni HN']; subst.
  unfold first_named. cbn [find]. destruct (str_eqb n (name_str e)) eqn:En.
  - apply str_eqb_spec in En. destruct Hin as [Eh|Hin]; [injection Eh as Ea Eb; rewrite <- Eb; exists e; ssplit; auto|].
    destruct Hni. match goal with |- In ?x _ => replace x with n by congruence end. apply (in_map fst) in Hin. exact Hin.
  - destruct Hin as [Eh|Hin]; [injection Eh as Ea Eb; rewrite Ea, (proj2 (str_eqb_spec _ _) eq_refl) in En; discriminate|]. apply IH; auto.
Qed.

Lemma ent_pad k d t p b : at_path t p (FFile b) -> p <> [] -> proper t -> forall r, scans_n k d t r -> padded d t r ->
  exists e, ent k d r p = Some e /\ supplies d (2048 * r_sector (region_of e)) (zero_padded b).
Proof.
  intros Hat. remember (FFile b) as t' eqn:Et. revert Et. induction Hat as [t|cs n t p t' Hin Hat IH]; intros Et Hn HP r Hs Hpd; [congruence|].
  inversion Hs as [|? ? es H1 H2]; subst. inversion Hpd as [|? ? es' H1' H2']; subst.
  assert (Ok (E:=rerr) es' = Ok es) as [= ->] by (eapply returns_fun; [exact H1'|exists k; exact H1]).
  destruct (first_named_pad k d cs es n t) as (e & F1 & F2 & F3); auto; [apply (HP [] cs); constructor|].
  cbn [ent]. rewrite H1, F1 by lia. destruct p as [|s p].
  - inversion Hat; subst. exists e. split; [reflexivity|]. inversion F3; subst. assumption.
  - apply IH; [reflexivity|discriminate|eapply every_dir_sub; [exact HP|econstructor; [exact Hin|constructor]]|exact F2|exact F3].
Qed.

(** Every file of the tree is copied. *)
Lemma listing_copy p listing : forall secs e, In e listing -> l_is_dir e = false ->
  In (SCopy (from_base p (l_name e)) (l_sector e * SECTOR_SIZE) (l_size e)) (fst (plan_listing p listing secs)).
Proof.
  induction listing as [|e0 listing IH]; intros secs e Hin Hd; [destruct Hin|]. cbn [plan_listing]. cbv zeta.
  destruct Hin as [->|Hin].
  - rewrite Hd. destruct (plan_listing p listing secs) as [ls r]. cbn. auto.
  - destruct (l_is_dir e0).
    + specialize (IH (map_insert (from_base p (l_name e0)) (l_sector e0) secs) e Hin Hd). destruct (plan_listing p listing _) as [ls r]. cbn in *. auto.
    + specialize (IH secs e Hin Hd). destruct (plan_listing p listing secs) as [ls r]. cbn in *. auto.
Qed.

Lemma file_copied m t pls rs p b : source t -> laid m t pls rs -> at_path t p (FFile b) ->
  exists s, In (SCopy p (s * 2048) (len b)) (all_steps t pls rs) /\ (b <> [] -> 2048 * s < len (final t pls rs)).
Proof.
  intros (Ht & HP & Hs) HL Hat.
  destruct (region_of_reg m t pls rs HP HL p _ Hat) as (r & _ & Hr). destruct Hr as [E|Hr].
  { injection E as E _ _. assert (p = []) as -> by (symmetry; exact E). assert (t = FFile b) as -> by (inversion Hat; reflexivity). discriminate. }
  apply in_map_iff in Hr as ([pp e] & E & Hr). cbn [fst snd] in E. injection E as E1 E2 E3. apply all_entries_in in Hr as (pl & Hpl & Epl & He).
  destruct (listing_child m t pls rs HL pl e Hpl He) as (s' & x & Hc & Hi & Hsz & Hd & Hk).
  pose proof (at_path_snoc _ _ _ _ _ (pl_at m t pls rs HL pl Hpl) Hc) as Hat'. rewrite Epl in Hat'. rewrite E1 in Hat'.
  pose proof (at_same t _ _ _ HP Hat Hat') as <-. cbn [is_fdir] in Hk. rewrite <- Hk in Hd.
  assert (Hin : In (SCopy p (l_sector e * 2048) (l_size e)) (all_steps t pls rs)).
  { unfold all_steps. apply in_or_app. right. apply in_or_app. left. apply in_concat. exists (pl_steps pl). split; [apply in_map; exact Hpl|].
    unfold pl_steps. right; right. rewrite <- E1, <- Epl. apply (listing_copy (pl_path pl)); auto. }
  assert (Hz : l_size e = len b).
  { pose proof (steps_copies m t pls rs HP HL) as Hok. unfold copies_ok in Hok. rewrite Forall_forall in Hok. destruct (Hok _ Hin) as (b' & Hb & ->).
    pose proof (at_same t _ _ _ HP Hat Hb) as E. injection E as ->. reflexivity. }
  rewrite Hz in Hin. exists (l_sector e). split; [exact Hin|]. intros Hne.
  assert (Hw : In (l_sector e * 2048, b) (flat_map (sw t) (all_steps t pls rs))).
  { apply in_flat_map. eexists. split; [exact Hin|]. cbn [sw]. rewrite (file_bytes_at t HP p b Hat). left. reflexivity. }
  rewrite steps_writes in Hw. destruct (writes_len (map snd (wl t pls) ++ [(65536, desc_bytes rs)]) []) as (_ & H & _).
  specialize (H _ Hw Hne). cbn [fst snd] in H. pose proof (final_len t pls rs) as Hl. unfold body in Hl.
  assert (0 < len b) by (destruct b; [congruence|rewrite len_cons; lia]). lia.
Qed.

(** ** The run *)
Section Run.
Variables (k : nat) (d : dev) (t : ftree) (v : volume).
Notation root := (v_root v).
Hypothesis HP : proper t.
Hypothesis HL : latin_tree t.
Hypothesis HS : scans_n k d t root.

(** What reading from the cache amounts to. *)
Definition reads_by (c : cache) : Prop :=
  forall p b, at_path t p (FFile b) -> exists e, ent k d root p = Some e /\ r_size (region_of e) = len b /\
    supplies d (2048 * r_sector (region_of e)) b /\
    forall D (cp : copier D) dest i o n, copy_in (xfs_fs cp c) p dest i o n =
      if N.min n (len b) =? 0 then (dest, Ok 0)
      else if len b <=? i then (dest, Err (IoOther 1001))
      else let (dest', r) := cp (2048 * r_sector (region_of e) + i) o (N.min n (len b)) dest in (dest', map_err copy_ioerr r).

Lemma good_reads c : is_fdir t = true -> good k d t v c (map fst (dirs [] t)) -> reads_by c.
Proof.
  intros Ht [Gr Gd] p b Hat. pose proof (path_latin t HL _ _ Hat) as Hlat. destruct (list_snoc p) as [->|(p' & n & ->)].
  - exfalso. assert (t = FFile b) as E by (inversion Hat; reflexivity). rewrite E in Ht. discriminate.
  - assert (Hne : p' ++ [n] <> []) by (destruct p'; discriminate).
    destruct (ent_at k d t _ _ Hat Hne HP root HS) as (e & E1 & E2 & E3). inversion E3 as [? ? L1 L2|]; subst.
    apply at_unsnoc in Hat as (cs & H1 & H2).
    assert (Hv : val c (p' ++ [n]) <> None).
    { apply (Gd p' cs n (FFile b)); auto. apply (in_map fst) with (x := (p', cs)). apply dirs_root. exact H1. }
    destruct (val c (p' ++ [n])) as [e'|] eqn:Ev; [|congruence]. pose proof (Gr _ _ Ev) as E4. rewrite E1 in E4. injection E4 as <-.
    exists e. ssplit; auto. intros D cp dest i o m. cbn [copy_in xfs_fs].
    unfold xfs_copy. rewrite (get_val c _ Hlat Hne), Ev. fold (region_of e). rewrite L1.
    destruct (N.min m (len b) =? 0); [reflexivity|].
    unfold region_offset. rewrite L1. destruct (len b <=? i); [reflexivity|]. cbn [map_err]. reflexivity.
Qed.

Lemma compress_split m fuel st evs st' evs' : is_fdir t = true -> (k <= fuel)%nat -> (length (dirs [] t) < fuel)%nat ->
  (forall fs, presents fs t -> copy_in fs = lin_copy -> create_xdvdfs_image fuel m lin_wdev fs (st, evs) = ((st', evs'), Ok tt)) ->
  exists c, compress_from_volume fuel m d v (st, evs) = ((st', evs'), Ok c) /\ reads_by c.
Proof.
  intros Ht Hk Hf Hcr. set (fs0 := mkFsys lin (ref_read_dir k d root) lin_copy).
  assert (Hp0 : presents fs0 t) by (apply ref_presents; auto).
  pose proof (dir_tree_ok fs0 t fuel st evs Ht Hp0 Hf) as Hrun.
  assert (Hst : forall p, In p [[]] -> exists cs, at_path t p (FDir cs) /\ (p = [] \/ val (trie_default (T:=dentry)) p <> None)).
  { intros p [<-|[]]. destruct t as [|cs]; [discriminate|]. exists cs. split; [constructor|left; reflexivity]. }
  destruct (loop_good k d t v HP HL HS fuel _ fuel Hk [[]] trie_default [] (st, evs) _ _ (good_empty k d t v) Hst Hrun) as (c & Hx & Hg).
  assert (Hm : map fst (found fs0 (dirs [] t)) = map fst (dirs [] t)) by (unfold found; rewrite map_map; reflexivity).
  rewrite Hm in Hg. exists c. split; [|apply good_reads; auto].
  specialize (Hcr fs0 Hp0 eq_refl). rewrite create_split in Hcr. unfold pbind at 1 in Hcr. rewrite Hrun in Hcr.
  unfold compress_from_volume, pbind at 1. rewrite Hx.
  rewrite (rest_copy m lin_wdev fs0 (mkFsys lin (fun _ => Err (IoOther 1002)) lin_copy)) in Hcr by reflexivity.
  unfold pbind at 1. rewrite Hcr. reflexivity.
Qed.

Lemma reads_sectors c : reads_by c -> is_fdir t = true -> padded d t root -> no_small_file t -> sector_copies (xfs_fs (default_copier d mem_wdev) c) t.
Proof.
  intros Hr Ht Hpd Hns p b i Hat Hi. destruct (Hr p b Hat) as (e & E1 & E2 & E3 & E4).
  assert (Hne : p <> []) by (intros ->; assert (t = FFile b) as E by (inversion Hat; reflexivity); rewrite E in Ht; discriminate).
  destruct (ent_pad k d t p b Hat Hne HP root HS Hpd) as (e' & F1 & F2). rewrite E1 in F1. injection F1 as <-.
  assert (Hb : 2048 <= len b) by (destruct (Hns p b Hat); lia).
  rewrite E4. replace (N.min 2048 (len b)) with 2048 by lia. destruct (N.eqb_spec 2048 0); [discriminate|]. destruct (N.leb_spec (len b) (2048 * i)); [lia|].
  set (z := slice (zero_padded b) (2048 * i) 2048). assert (Hz : len z = 2048) by (unfold z; rewrite slice_len, zero_padded_len; unfold span; lia).
  assert (Hsup : supplies d (2048 * r_sector (region_of e) + 2048 * i) z).
  { intros j n' Hj Hn'. rewrite <- N.add_assoc. rewrite F2 by (auto; rewrite zero_padded_len; unfold span; lia). f_equal. unfold z.
    rewrite slice_slice by lia. reflexivity. }
  destruct (c34_mem_lemma d z _ 0 (fill 2048 x00) Hsup) as (buf & B1 & B2 & B3); [rewrite len_fill; lia|]. rewrite Hz in B1. unfold default_copier. rewrite B1.
  exists buf. split; [reflexivity|]. rewrite len_fill in B3. split; [exact B3|]. intros j Hj. rewrite B2, Hz.
  destruct (N.leb_spec 0 j); [|lia]. destruct (N.ltb_spec j (0 + 2048)); [|lia]. cbn [andb]. rewrite N.sub_0_r. unfold z. change byte_at with get.
  rewrite get_slice by auto. apply zero_padded_get.
Qed.
End Run.

Lemma rw_small d off b : supplies d off b -> len b < 2048 ->
  snd (rw_copy d mem_wdev off 0 (len b) (fill 2048 x00)) = Ok (len b).
Proof. intros Hs Hl. destruct (c34_mem_lemma d b off 0 (fill 2048 x00) Hs) as (x & -> & _); [rewrite len_fill; lia|reflexivity]. Qed.

Lemma c38_lemma m d v t img evs : scans d t (v_root v) -> source t -> latin_tree t -> packs m t img ->
  exists n s evs', lin_len s = len img /\ forall fuel, (n <= fuel)%nat -> exists c,
    compress_from_volume fuel m d v ([], evs) = ((s, evs'), Ok c)
    /\ (forall p b, at_path t p (FFile b) -> 0 < len b < 2048 ->
          exists k, 2048 * k < len img /\ read_sector (xfs_fs (default_copier d mem_wdev) c) s k = Panic PAssert)
    /\ (padded d t (v_root v) -> no_small_file t ->
          forall k, exists b, read_sector (xfs_fs (default_copier d mem_wdev) c) s k = Ok b /\ is_sector img k b).
Proof.
  intros Hsc HS HLat Hpk. pose proof HS as (Ht & HP & Hsm). destruct (scans_bound _ _ _ Hsc) as (k & Hk).
  destruct (lin_run' m t img evs HS Hpk) as (pls & rs & s & evs' & HLd & Himg & Hrun & Hlen & Hinv & Hcp).
  exists (Nat.max k (S (length (dirs [] t)))), s, evs'. split; [exact Hlen|]. intros fuel Hf.
  destruct (compress_split k d t v HP HLat Hk m fuel [] evs s evs' Ht ltac:(lia) ltac:(lia)) as (c & Hc & Hr).
  { intros fs Hp He. apply Hrun; auto. lia. }
  exists c. split; [exact Hc|]. split.
  - intros p b Hat Hb. destruct (file_copied m t pls rs p b HS HLd Hat) as (s0 & Hin & Hlt). exists s0.
    split; [rewrite Himg; apply Hlt; intros ->; rewrite (@len_nil byte) in Hb; lia|].
    specialize (Hcp _ _ _ Hin ltac:(lia)). rewrite N.div_mul in Hcp by discriminate. unfold read_sector. rewrite Hcp.
    destruct (Hr p b Hat) as (e & E1 & E2 & E3 & E4). rewrite E4. replace (N.min 2048 (len b)) with (len b) by lia.
    destruct (N.eqb_spec (len b) 0); [lia|]. rewrite N.mul_0_r. destruct (N.leb_spec (len b) 0); [lia|]. rewrite N.add_0_r.
    unfold default_copier. pose proof (rw_small d _ b E3 ltac:(lia)) as Hrw. destruct (rw_copy d mem_wdev _ 0 (len b) (fill 2048 x00)) as [x r]. cbn [snd] in Hrw. rewrite Hrw.
    cbn [map_err bind]. destruct (N.eqb_spec (len b) 2048); [lia|]. reflexivity.
  - intros Hpd Hns. apply (linv_read t); auto. eapply reads_sectors; eauto.
Qed.

(** ** Packed images are padded *)
Lemma final_slack m t pls rs p b s i : proper t -> laid m t pls rs -> at_path t p (FFile b) -> In (p, (s, len b)) (regs rs pls) ->
  len b <= i < 2048 * span (len b) -> get (final t pls rs) (2048 * s + i) = x00.
Proof.
  intros HP HL Hat Hr Hi.
  assert (Hb : get (body t pls rs) (2048 * s + i) = x00).
  { unfold body. rewrite writes_other; [apply get_past; rewrite (@len_nil byte); lia|]. intros w Hw Hc. apply in_app_or in Hw as [Hw|[<-|[]]].
    - apply in_map_iff in Hw as ([q [off b']] & <- & Hw). destruct (wl_reg m t pls rs HP HL q off b' Hw) as (s' & n' & R1 & -> & R2 & R3).
      unfold covers in Hc. cbn [fst snd] in Hc. destruct (list_eq_dec (list_eq_dec N.eq_dec) q p) as [->|Hne].
      + pose proof (reg_fun m t pls rs HP HL _ _ _ Hr R1) as E. injection E as <- <-. destruct R3 as [(Hb & _)|(pl & Hpl & Epl & _)].
        * pose proof (at_same t _ _ _ HP Hat Hb) as E. injection E as <-. lia.
        * pose proof (pl_at m t pls rs HL pl Hpl) as Hd. rewrite Epl in Hd. pose proof (at_same t _ _ _ HP Hat Hd). discriminate.
      + assert (Hss : span (len b) <= sectors (len b)) by (unfold span, sectors; destruct (N.eqb_spec (len b) 0); lia).
        destruct (reg_disjoint m t pls rs HL _ _ _ _ _ _ R1 Hr Hne); lia.
    - unfold covers in Hc. cbn [fst snd] in Hc. rewrite desc_len in Hc. eapply reg_bounds in Hr; eauto. lia. }
  unfold final, pad. destruct (N.lt_ge_cases (2048 * s + i) (len (body t pls rs))); [rewrite get_app_l by auto; exact Hb|].
  rewrite get_app_r by auto. apply get_fill.
Qed.

Lemma packed_padded m t pls rs : proper t -> laid m t pls rs -> forall t' q s n, at_path t q t' -> In (q, (s, n)) (regs rs pls) ->
  exists t'', same_tree t' t'' /\ padded (file_dev (final t pls rs)) t'' (mkRegion s n).
Proof.
  intros HP HL t'. induction t' as [b|cs IH] using ftree_rect'; intros q s n Hat Hr.
  - exists (FFile b). split; [constructor|].
    pose proof (image_tree m t pls rs HP HL (file_dev (final t pls rs)) (final_view m t pls rs HP HL) (FFile b) q s n Hat Hr) as H.
    inversion H as [? ? H1 H2|]; subst. cbn [r_size r_sector] in *. subst n. constructor; [reflexivity|]. cbn [r_sector].
    destruct b as [|b0 b]; [intros i n' Hi Hn'; rewrite zero_padded_len, (@len_nil byte) in Hi; unfold span in Hi; lia|].
    set (bb := b0 :: b) in *. specialize (H2 ltac:(discriminate)). assert (Hbb : 0 < len bb) by (unfold bb; rewrite len_cons; lia).
    apply file_dev_ok in H2 as (H2 & H3); [|lia]. apply file_supplies. unfold file_dev. rewrite zero_padded_len.
    destruct (N.eqb_spec (2048 * span (len bb)) 0); [unfold span in *; lia|].
    pose proof (padded_multiple (body t pls rs)) as Hm. fold (final t pls rs) in Hm.
    destruct (N.leb_spec (2048 * s + 2048 * span (len bb)) (len (final t pls rs))); [|unfold span in *; lia]. f_equal. apply get_ext.
    + rewrite slice_len, zero_padded_len. lia.
    + intros i Hi. rewrite slice_len in Hi. rewrite get_slice by lia. rewrite zero_padded_get. destruct (N.lt_ge_cases i (len bb)).
      * rewrite H2. rewrite get_slice by auto. reflexivity.
      * rewrite (get_past bb) by auto. eapply (final_slack m t pls rs q bb s i HP HL Hat Hr). lia.
  - destruct (dir_view m t pls rs HP HL (file_dev (final t pls rs)) (final_view m t pls rs HP HL) q cs s n Hat Hr) as (T & es & T1 & T2 & T3 & T4 & _).
    specialize (T4 (file_lawful _)).
    assert (T5 : Permutation es (preorder T)) by (rewrite T2; symmetry; apply preorder_perm).
    apply F2_swap in T3. destruct (F2_perm _ _ _ T5 _ T3) as (cs' & Hcs' & HF). apply F2_swap in HF.
    assert (Hd : exists ds, Forall2 (fun c d => fst c = fst d /\ same_tree (snd c) (snd d)) cs' ds
       /\ Forall2 (fun c e => name_str e = fst c /\ is_dir e = is_fdir (snd c) /\ padded (file_dev (final t pls rs)) (snd c) (region_of e)) ds (map in_sector (preorder T))).
    { assert (Hin : forall c, In c cs' -> In c cs) by (intros c Hc; eapply Permutation_in; [symmetry; exact Hcs'|exact Hc]).
      clear -HF Hin IH Hat. revert Hin. induction HF as [|c e cs' es (A & B & C) HF IHF]; intros Hin; [exists []; split; constructor|].
      destruct IHF as (ds & D1 & D2); [intros c' Hc'; apply Hin; right; exact Hc'|]. rewrite Forall_forall in IH.
      assert (Hc : In c cs) by (apply Hin; left; auto). destruct c as [nm sub]. cbn [fst snd] in *.
      destruct (IH _ Hc (from_base q nm) (r_sector (region_of e)) (r_size (region_of e))) as (sub' & S1 & S2); [eapply at_path_snoc; eauto|exact C|].
      exists ((nm, sub') :: ds). split; [constructor; [cbn; auto|exact D1]|]. cbn [map]. constructor; [|exact D2]. cbn [fst snd].
      split; [exact A|]. split; [rewrite <- (same_kind _ _ S1); exact B|]. change (region_of (in_sector e)) with (region_of e).
      destruct (region_of e) as [rs0 rn0]. exact S2. }
    destruct Hd as (ds & D1 & D2). exists (FDir ds). split; [|econstructor; eauto].
    destruct (F2_perm _ _ _ (Permutation_sym Hcs') _ D1) as (ds' & P1 & P2). econstructor; eauto.
Qed.

Lemma c38_padded m t img : source t -> packs m t img -> exists v t', read_volume (file_dev img) = Ok v /\ same_tree t t' /\ padded (file_dev img) t' (v_root v) /\ scans (file_dev img) t' (v_root v).
Proof.
  intros HS Hp. destruct (packs_final m t img HS Hp) as (pls & rs & HL & ->). pose proof HS as (Ht & HP & Hsm).
  destruct (final_volume m t pls rs HP HL) as (v & Hv & Hroot).
  destruct (packed_padded m t pls rs HP HL t [] 33 rs (at_here _) (or_introl eq_refl)) as (t' & Hsame & Hsc). rewrite <- Hroot in Hsc.
  exists v, t'. ssplit; auto. apply padded_scans. exact Hsc.
Qed.
