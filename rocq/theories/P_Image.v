(** The image that packing to a file produces. *)
From Verif Require Import M_Base M_Util M_Layout M_Avl M_Sector M_Dirtab M_Read M_Img.
From Verif Require Import S_Avl S_Codec S_Table S_Read S_Img.
From Verif Require Import P_Base P_Codec P_Place P_Dirtab P_Table P_Find P_Map P_Tree P_Tabs P_Scan P_Disk P_Plan P_Pack P_Run P_Bytes.
From Coq Require Import Init.Byte Permutation Sorted Lia.
Local Open Scope N_scope.

Definition file_bytes (t : ftree) (p : path) : list byte := match lookup_tree p t with Some (FFile b) => b | _ => [] end.

Definition pad2048 (s : N) : N := (s + 2047) / 2048 * 2048.

Section Image.
Variables (m : build) (t : ftree) (pls : list placed) (rs : N).
Hypothesis HP : proper t.
Hypothesis HL : laid m t pls rs.

Notation regions := (regs rs pls).

Lemma itemized_fwd cs xs c : itemized m cs xs -> In c cs -> exists x, In x xs /\ item_of m c = Ok x.
Proof.
  intros Hi Hc. induction Hi as [|c' x cs xs Hx Hi IH]; [destruct Hc|]. destruct Hc as [->|Hc]; [exists x; cbn; auto|].
  destruct (IH Hc) as (y & ? & ?). exists y. cbn; auto.
Qed.

Lemma listing_child pl e : In pl pls -> In e (file_listing (pl_table pl)) ->
  exists s x, In (l_name e, s) (cs_at t (pl_path pl)) /\ item_of m (l_name e, s) = Ok x /\ l_size e = size_of x /\ l_is_dir e = i_dir x /\ is_fdir s = i_dir x.
Proof.
  intros Hpl He. pose proof (ld_ok _ _ _ _ HL) as HF. rewrite Forall_forall in HF. destruct (HF _ Hpl) as [Hat (xs & D & s & F1 & F2 & F3 & F4 & _)].
  rewrite F4 in He. apply in_map_iff in He as (pe & <- & Hpe).
  assert (Hx : In (p_item pe) xs).
  { eapply Permutation_in; [exact F2|]. apply in_map. eapply Permutation_in; [apply preorder_perm|exact Hpe]. }
  destruct (itemized_in _ _ _ _ F1 Hx) as ([n s'] & Hc & Hi). exists s', (p_item pe). cbn [lst l_name l_size l_is_dir].
  pose proof (item_name _ _ _ Hi) as Hn. cbn [fst] in Hn. rewrite Hn. ssplit; auto.
  unfold item_of in Hi. cbn [snd fst] in Hi. destruct s' as [b|cs'].
  - apply bind_ok in Hi as (? & _ & Hi). injection Hi as <-. reflexivity.
  - apply bind_ok in Hi as (? & _ & Hi). apply bind_ok in Hi as (? & _ & Hi). injection Hi as <-. reflexivity.
Qed.

Lemma child_listing pl n s : In pl pls -> In (n, s) (cs_at t (pl_path pl)) -> exists e, In e (file_listing (pl_table pl)) /\ l_name e = n.
Proof.
  intros Hpl Hc. pose proof (ld_ok _ _ _ _ HL) as HF. rewrite Forall_forall in HF. destruct (HF _ Hpl) as [Hat (xs & D & sz & F1 & F2 & F3 & F4 & _)].
  destruct (itemized_fwd _ _ _ F1 Hc) as (x & Hx & Hi).
  assert (Hx' : In x (map p_item (preorder D))).
  { eapply Permutation_in; [|exact Hx]. rewrite <- F2. apply Permutation_map. symmetry. apply preorder_perm. }
  apply in_map_iff in Hx' as (pe & <- & Hpe). exists (lst pe). rewrite F4. split; [apply in_map; exact Hpe|].
  pose proof (item_name _ _ _ Hi) as Hn. exact Hn.
Qed.

Lemma pl_at pl : In pl pls -> at_path t (pl_path pl) (FDir (cs_at t (pl_path pl))).
Proof. intros H. pose proof (ld_ok _ _ _ _ HL) as HF. rewrite Forall_forall in HF. apply (HF _ H). Qed.

Lemma all_entries_in p e : In (p, e) (all_entries pls) <-> exists pl, In pl pls /\ pl_path pl = p /\ In e (file_listing (pl_table pl)).
Proof.
  unfold all_entries. rewrite in_concat. split.
  - intros (l & H1 & H2). apply in_map_iff in H1 as (pl & <- & Hpl). unfold pl_entries in H2. apply in_map_iff in H2 as (e' & [= <- <-] & He). eauto.
  - intros (pl & H1 & <- & H2). exists (pl_entries pl). split; [apply in_map; auto|]. unfold pl_entries. apply in_map. exact H2.
Qed.

Lemma pl_paths_nodup : NoDup (map pl_path pls).
Proof.
  eapply Permutation_NoDup; [symmetry; exact (ld_paths _ _ _ _ HL)|]. apply dirs_nodup. exact HP.
Qed.

Lemma pl_unique pl pl' : In pl pls -> In pl' pls -> pl_path pl = pl_path pl' -> pl = pl'.
Proof.
  pose proof pl_paths_nodup as H. revert H. clear. induction pls as [|x l IH]; cbn; [tauto|]. intros H. inversion H as [|? ? H1 H2]; subst.
  intros [<-|Ha] [<-|Hb] E; auto; exfalso; apply H1; [rewrite E|rewrite <- E]; apply in_map; auto.
Qed.

Lemma listing_names pl : In pl pls -> NoDup (map l_name (file_listing (pl_table pl))).
Proof.
  intros Hpl. pose proof (ld_ok _ _ _ _ HL) as HF. rewrite Forall_forall in HF. destruct (HF _ Hpl) as [Hat (xs & D & sz & F1 & F2 & F3 & F4 & _)].
  rewrite F4, map_map. cbn [lst l_name].
  eapply Permutation_NoDup with (l := map i_name xs).
  - rewrite <- F2, map_map. apply Permutation_map. symmetry. apply preorder_perm.
  - rewrite (itemized_names _ _ _ F1). apply (HP _ _ Hat).
Qed.

Lemma concat_nodup {A B} (f : A -> list B) l : NoDup l -> (forall x, In x l -> NoDup (f x)) ->
  (forall x y b, In x l -> In y l -> In b (f x) -> In b (f y) -> x = y) -> NoDup (concat (map f l)).
Proof.
  induction l as [|x l IH]; cbn; intros H1 H2 H3; [constructor|]. inversion H1 as [|? ? N1 N2]; subst.
  apply NoDup_app_inv. ssplit; auto.
  - apply IH; auto. intros a b c Ha Hb. apply H3; auto.
  - intros b Hb Hc. apply in_concat in Hc as (l' & Hl & Hin). apply in_map_iff in Hl as (y & <- & Hy).
    apply N1. rewrite (H3 x y b); auto.
Qed.

Lemma nodup_of_map {A B} (f : A -> B) l : NoDup (map f l) -> NoDup l.
Proof. apply NoDup_map_inv. Qed.

Lemma regs_nodup : NoDup (map fst regions).
Proof.
  unfold regs. cbn [map fst]. rewrite map_map. cbn [fst]. constructor.
  - intros H. apply in_map_iff in H as (x & H & _). unfold from_base in H. destruct (fst x); discriminate.
  - unfold all_entries. rewrite concat_map, map_map. apply concat_nodup.
    + eapply nodup_of_map. exact pl_paths_nodup.
    + intros pl Hpl. unfold pl_entries. rewrite map_map. cbn [fst snd].
      pose proof (listing_names pl Hpl) as Hn. revert Hn. generalize (file_listing (pl_table pl)). clear.
      induction l as [|e l IH]; cbn; intros H; [constructor|]. inversion H as [|? ? H1 H2]; subst. constructor; auto.
      intros Hin. apply H1. apply in_map_iff in Hin as (e' & E & Hin). apply from_base_inj in E as (_ & <-). apply in_map. exact Hin.
    + intros pl pl' b H1 H2 H3 H4. unfold pl_entries in *. rewrite map_map in *. cbn [fst snd] in *.
      apply in_map_iff in H3 as (e & <- & _). apply in_map_iff in H4 as (e' & E & _). apply from_base_inj in E as (E & _).
      apply pl_unique; auto.
Qed.

Lemma reg_fun q a b : In (q, a) regions -> In (q, b) regions -> a = b.
Proof. intros H1 H2. eapply same_fst; eauto. apply regs_nodup. Qed.

Lemma reg_disjoint q q' s n s' n' : In (q, (s, n)) regions -> In (q', (s', n')) regions -> q <> q' ->
  s + sectors n <= s' \/ s' + sectors n' <= s.
Proof.
  intros H1 H2 Hne. apply In_nth_error in H1 as (i & H1). apply In_nth_error in H2 as (j & H2).
  assert (Hij : i <> j) by congruence.
  pose proof (ld_starts _ _ _ _ HL) as Hs.
  assert (A : forall k q s n, nth_error regions k = Some (q, (s, n)) ->
     nth_error (starts 33 (map (fun r => snd (snd r)) regions)) k = Some s /\ nth_error (map (fun r => snd (snd r)) regions) k = Some n).
  { intros k q0 s0 n0 H. rewrite <- Hs. split.
    - rewrite (map_nth_error _ _ _ H). reflexivity.
    - rewrite (map_nth_error _ _ _ H). reflexivity. }
  destruct (A _ _ _ _ H1) as (A1 & A2). destruct (A _ _ _ _ H2) as (B1 & B2).
  destruct (Nat.lt_total i j) as [H|[H|H]]; [|congruence|].
  - left. apply (starts_disjoint _ _ _ _ _ _ _ _ H A1 A2 B1 B2).
  - right. apply (starts_disjoint _ _ _ _ _ _ _ _ H B1 B2 A1 A2).
Qed.

Lemma reg_bounds q s n : In (q, (s, n)) regions -> 33 <= s /\ s + sectors n <= 33 + total (map (fun r => snd (snd r)) regions).
Proof.
  intros H1. apply In_nth_error in H1 as (i & H1). pose proof (ld_starts _ _ _ _ HL) as Hs.
  eapply starts_le; [rewrite <- Hs, (map_nth_error _ _ _ H1); reflexivity|rewrite (map_nth_error _ _ _ H1); reflexivity].
Qed.

(** What the regions are. *)
Lemma reg_kind q s n : In (q, (s, n)) regions ->
  (exists b, at_path t q (FFile b) /\ n = len b)
  \/ (exists cs w sz, at_path t q (FDir cs) /\ tab m (FDir cs) = Ok w /\ @dirtab_size fserr w = Ok sz /\ (n = sz /\ q = [] \/ n = pad2048 sz)).
Proof.
  unfold regs. intros [H|H].
  - injection H as <- <- <-. right. destruct (ld_root _ _ _ _ HL) as (pl0 & pls' & E & E1 & E2 & E3).
    assert (Hin : In pl0 pls) by (rewrite E; left; auto).
    pose proof (ld_ok _ _ _ _ HL) as HF. rewrite Forall_forall in HF. destruct (HF _ Hin) as [Hat (xs & D & sz & F1 & F2 & F3 & F4 & F5 & _)].
    rewrite E1 in *. exists (cs_at t []), (pl_writer pl0), rs. ssplit; auto.
  - apply in_map_iff in H as ([p e] & [= <- <- <-] & H). cbn [fst snd] in *. apply all_entries_in in H as (pl & Hpl & <- & He).
    destruct (listing_child pl e Hpl He) as (s' & x & Hc & Hi & Hsz & _). rewrite Hsz.
    pose proof (at_path_snoc _ _ _ _ _ (pl_at pl Hpl) Hc) as Hat. unfold item_of in Hi. cbn [fst snd] in Hi. destruct s' as [b|cs'].
    + left. exists b. split; auto. apply bind_ok in Hi as (s0 & Hs0 & [= <-]). rewrite try_into_spec in Hs0. destruct (len b <? u32_modulus); [|discriminate].
      injection Hs0 as <-. reflexivity.
    + right. apply bind_ok in Hi as (w & Hw & Hi). apply bind_ok in Hi as (s0 & Hs0 & [= <-]). exists cs', w, s0. ssplit; auto.
Qed.

Lemma pl_exists q cs : at_path t q (FDir cs) -> exists pl, In pl pls /\ pl_path pl = q.
Proof.
  intros H. assert (Hq : In q (map pl_path pls)).
  { eapply Permutation_in; [symmetry; exact (ld_paths _ _ _ _ HL)|]. apply (in_map fst) with (x := (q, cs)). apply dirs_root. exact H. }
  apply in_map_iff in Hq as (pl & <- & Hin). eauto.
Qed.

Lemma reg_exists q t' : at_path t q t' -> exists s n, In (q, (s, n)) regions.
Proof.
  intros H. destruct (list_snoc q) as [->|(p & n & ->)]; [exists 33, rs; left; auto|].
  apply at_unsnoc in H as (cs & H1 & H2). destruct (pl_exists p cs H1) as (pl & Hpl & <-).
  rewrite <- (cs_at_eq _ _ _ HP H1) in H2. destruct (child_listing pl n t' Hpl H2) as (e & He & Hn).
  exists (l_sector e), (l_size e). right. apply in_map_iff. exists (pl_path pl, e). cbn [fst snd]. rewrite Hn. split; auto.
  apply all_entries_in. eauto.
Qed.

(** ** The writes *)
Definition file_wl (p : path) (e : listing_entry) : list (path * (N * list byte)) :=
  if l_is_dir e then [] else [(from_base p (l_name e), (l_sector e * SECTOR_SIZE, file_bytes t (from_base p (l_name e))))].
Definition pl_wl (pl : placed) : list (path * (N * list byte)) :=
  (pl_path pl, (pl_sector pl * SECTOR_SIZE, entry_table (pl_table pl))) :: concat (map (file_wl (pl_path pl)) (file_listing (pl_table pl))).
Definition wl : list (path * (N * list byte)) := concat (map pl_wl pls).

Lemma wl_in q w : In (q, w) wl <-> (exists pl, In pl pls /\ q = pl_path pl /\ w = (pl_sector pl * SECTOR_SIZE, entry_table (pl_table pl)))
  \/ (exists pl e, In pl pls /\ In e (file_listing (pl_table pl)) /\ l_is_dir e = false /\ q = from_base (pl_path pl) (l_name e)
        /\ w = (l_sector e * SECTOR_SIZE, file_bytes t q)).
Proof.
  unfold wl. rewrite in_concat. split.
  - intros (l & H1 & H2). apply in_map_iff in H1 as (pl & <- & Hpl). destruct H2 as [[= <- <-]|H2]; [left; eauto|].
    right. apply in_concat in H2 as (l & H1 & H2). apply in_map_iff in H1 as (e & <- & He). unfold file_wl in H2.
    destruct (l_is_dir e) eqn:Ed; [destruct H2|]. destruct H2 as [[= <- <-]|[]]. exists pl, e. ssplit; auto.
  - intros [(pl & H1 & -> & ->)|(pl & e & H1 & H2 & H3 & -> & ->)].
    + exists (pl_wl pl). split; [apply in_map; auto|left; auto].
    + exists (pl_wl pl). split; [apply in_map; auto|]. right. apply in_concat. exists (file_wl (pl_path pl) e). split; [apply in_map; auto|].
      unfold file_wl. rewrite H3. left. auto.
Qed.

Lemma file_bytes_at q b : at_path t q (FFile b) -> file_bytes t q = b.
Proof. intros H. apply lookup_at in H; auto. unfold file_bytes. rewrite H. reflexivity. Qed.

Lemma at_fun q a b : at_path t q a -> at_path t q b -> a = b.
Proof. intros H1 H2. apply lookup_at in H1; auto. apply lookup_at in H2; auto. congruence. Qed.

Lemma wl_reg q off b : In (q, (off, b)) wl -> exists s n, In (q, (s, n)) regions /\ off = s * 2048 /\ len b <= 2048 * sectors n
  /\ (at_path t q (FFile b) /\ n = len b \/ exists pl, In pl pls /\ pl_path pl = q /\ pl_sector pl = s /\ b = entry_table (pl_table pl) /\ len b = 2048 * sectors n).
Proof.
  intros H. apply wl_in in H as [(pl & Hpl & -> & [= -> ->])|(pl & e & Hpl & He & Hd & -> & [= -> ->])].
  - destruct (ld_from _ _ _ _ HL pl Hpl) as (n & Hn). exists (pl_sector pl), n.
    assert (Hlen : len (entry_table (pl_table pl)) = 2048 * sectors n).
    { pose proof (ld_ok _ _ _ _ HL) as HF. rewrite Forall_forall in HF. destruct (HF _ Hpl) as [Hat (xs & D & sz & F1 & F2 & F3 & F4 & F5 & F6 & F7 & F8 & F9)].
      rewrite F8. destruct (reg_kind _ _ _ Hn) as [(b & Hb & _)|(cs & w & s0 & Hb & Hw & Hs & Hk)].
      - pose proof (at_fun _ _ _ Hat Hb). discriminate.
      - pose proof (at_fun _ _ _ Hat Hb) as E. injection E as <-. rewrite F5 in Hw. injection Hw as <-. rewrite F6 in Hs. injection Hs as <-.
        destruct Hk as [(-> & _)| -> ]; [reflexivity|]. unfold pad2048. rewrite sectors_pad by lia. reflexivity. }
    ssplit; auto; [rewrite Hlen; lia|]. right. exists pl. ssplit; auto.
  - assert (Hr : In (from_base (pl_path pl) (l_name e), (l_sector e, l_size e)) regions).
    { right. apply in_map_iff. exists (pl_path pl, e). cbn [fst snd]. split; auto. apply all_entries_in. eauto. }
    exists (l_sector e), (l_size e). destruct (listing_child pl e Hpl He) as (s' & x & Hc & Hi & Hsz & Hdir & Hk).
    rewrite Hd in Hdir. rewrite <- Hdir in Hk. destruct s' as [b|cs']; [|discriminate].
    pose proof (at_path_snoc _ _ _ _ _ (pl_at pl Hpl) Hc) as Hat. rewrite (file_bytes_at _ _ Hat).
    assert (Hlb : l_size e = len b).
    { destruct (reg_kind _ _ _ Hr) as [(b' & Hb & ->)|(cs & w & s0 & Hb & _)].
      - pose proof (at_fun _ _ _ Hat Hb) as E. injection E as <-. reflexivity.
      - pose proof (at_fun _ _ _ Hat Hb). discriminate. }
    ssplit; auto. rewrite Hlb. unfold sectors. destruct (N.eqb_spec (len b) 0); lia.
Qed.

Lemma wl_nodup : NoDup (map fst wl).
Proof.
  unfold wl. rewrite concat_map, map_map. apply concat_nodup.
  - eapply nodup_of_map. exact pl_paths_nodup.
  - intros pl Hpl. unfold pl_wl. cbn [map fst]. rewrite concat_map, map_map.
    assert (Hf : forall q, In q (concat (map (fun e => map fst (file_wl (pl_path pl) e)) (file_listing (pl_table pl)))) -> exists n, q = from_base (pl_path pl) n).
    { intros q Hq. apply in_concat in Hq as (l & H1 & H2). apply in_map_iff in H1 as (e & <- & He). unfold file_wl in H2.
      destruct (l_is_dir e); cbn in H2; [tauto|]. destruct H2 as [<-|[]]. eauto. }
    constructor.
    + intros Hq. apply Hf in Hq as (n & Hq). pose proof (path_cmp_parent (pl_path pl) n) as X. rewrite <- Hq, path_cmp_refl in X. discriminate.
    + apply concat_nodup.
      * eapply nodup_of_map. apply listing_names. exact Hpl.
      * intros e He. unfold file_wl. destruct (l_is_dir e); repeat constructor. cbn. tauto.
      * intros e e' q H1 H2 H3 H4. unfold file_wl in *. destruct (l_is_dir e), (l_is_dir e'); cbn in *; try tauto.
        destruct H3 as [<-|[]], H4 as [H4|[]]. apply from_base_inj in H4 as (_ & H4).
        pose proof (listing_names pl Hpl) as Hn. revert Hn H1 H2 H4. clear. generalize (file_listing (pl_table pl)).
        induction l as [|x l IH]; cbn; [tauto|]. intros H. inversion H as [|? ? N1 N2]; subst.
        intros [<-|Ha] [<-|Hb] E; auto; exfalso; apply N1; [rewrite <- E|rewrite E]; apply in_map; auto.
  - intros pl pl' q H1 H2 H3 H4.
    assert (G : forall pl, In pl pls -> In q (map fst (pl_wl pl)) -> q = pl_path pl \/ exists n b, q = from_base (pl_path pl) n /\ at_path t q (FFile b)).
    { clear -HP HL. intros pl Hpl Hq. unfold pl_wl in Hq. cbn [map fst] in Hq. destruct Hq as [<-|Hq]; auto. right.
      apply in_map_iff in Hq as ([q' w] & E & Hq). cbn in E. subst q'.
      assert (Hin : In (q, w) wl) by (unfold wl; apply in_concat; exists (pl_wl pl); split; [apply in_map; auto|right; auto]).
      apply in_concat in Hq as (l & A1 & A2). apply in_map_iff in A1 as (e & <- & He). unfold file_wl in A2. destruct (l_is_dir e) eqn:Ed; [destruct A2|].
      destruct A2 as [[= <- <-]|[]]. destruct (listing_child pl e Hpl He) as (s' & x & Hc & Hi & Hsz & Hdir & Hk).
      rewrite Ed in Hdir. rewrite <- Hdir in Hk. destruct s' as [b|cs']; [|discriminate]. exists (l_name e), b. split; auto.
      apply (at_path_snoc _ _ _ _ _ (pl_at pl Hpl) Hc). }
    destruct (G pl H1 H3) as [E1|(n & b & E1 & A1)]; destruct (G pl' H2 H4) as [E2|(n' & b' & E2 & A2)].
    + apply pl_unique; auto. congruence.
    + pose proof (pl_at pl H1) as X. rewrite <- E1 in X. pose proof (at_fun _ _ _ X A2). discriminate.
    + pose proof (pl_at pl' H2) as X. rewrite <- E2 in X. pose proof (at_fun _ _ _ X A1). discriminate.
    + apply pl_unique; auto. rewrite E1 in E2. apply from_base_inj in E2 as (E2 & _). exact E2.
Qed.

Lemma wl_apart : ForallOrdPairs apart (map snd wl ++ [(65536, desc_bytes rs)]).
Proof.
  assert (H : forall l, NoDup (map fst l) -> (forall x, In x l -> In x wl) -> ForallOrdPairs apart (map snd l ++ [(65536, desc_bytes rs)])).
  { induction l as [|[q [off b]] l IH]; cbn [map app]; intros Hn Hin; [repeat constructor|].
    inversion Hn as [|? ? N1 N2]; subst. constructor; [|apply IH; auto; intros x Hx; apply Hin; right; auto].
    destruct (wl_reg q off b (Hin _ (or_introl eq_refl))) as (s & n & R1 & -> & R2 & _).
    apply Forall_forall. intros w Hw. apply in_app_or in Hw as [Hw|[<-|[]]].
    - apply in_map_iff in Hw as ([q' [off' b']] & <- & Hw). cbn [snd].
      destruct (wl_reg q' off' b' (Hin _ (or_intror Hw))) as (s' & n' & R1' & -> & R2' & _).
      assert (Hne : q <> q') by (intros ->; apply N1; apply (in_map fst) in Hw; exact Hw).
      unfold apart. cbn [fst snd]. destruct (reg_disjoint _ _ _ _ _ _ R1 R1' Hne); lia.
    - unfold apart. cbn [fst snd]. destruct (reg_bounds _ _ _ R1). right.
      change (len (desc_bytes rs)) with 2048. lia. }
  apply H; auto. apply wl_nodup.
Qed.

(** The image before padding. *)
Definition body : list byte := writes (map snd wl ++ [(65536, desc_bytes rs)]) [].

(** ** Everything can be read back *)
Section Tables.
Variable d : dev.
Hypothesis Hd : forall q off b cs, In (q, (off, b)) wl -> at_path t q (FDir cs) -> b <> [] -> view d off b.

Definition row_ok (q : path) (c : str * ftree) (e : dentry) : Prop :=
  name_str e = fst c /\ is_dir e = is_fdir (snd c)
  /\ In (from_base q (fst c), (r_sector (region_of e), r_size (region_of e))) regions.

(** The placement of the entries behind a table, as used by the sector scan. *)
Lemma table_view q cs s n : at_path t q (FDir cs) -> In (q, (s, n)) regions ->
  exists T es, directory d (mkRegion s n) T /\ Permutation es (inorder T) /\ Forall2 (row_ok q) cs es
    /\ (lawful d -> returns (fun fuel => scan_all fuel d (mkRegion s n)) (Ok (map in_sector (preorder T))))
    /\ balanced T /\ len cs <= 16384.
Proof.
  intros Hat Hr.
  destruct (pl_exists _ _ Hat) as (pl & Hpl & Eq). pose proof (pl_at pl Hpl) as Hat'. rewrite Eq in Hat'. pose proof (at_fun _ _ _ Hat Hat') as Ecs. injection Ecs as Ecs.
  destruct (ld_from _ _ _ _ HL pl Hpl) as (n' & Hn'). rewrite Eq in Hn'. pose proof (reg_fun _ _ _ Hr Hn') as E. injection E as -> <-.
  assert (Hw : In (q, (pl_sector pl * SECTOR_SIZE, entry_table (pl_table pl))) wl) by (apply wl_in; left; eauto).
  pose proof (ld_ok _ _ _ _ HL) as HF. rewrite Forall_forall in HF. destruct (HF _ Hpl) as [_ (xs & D & sz & F1 & F2 & F3 & F4 & F5 & F6 & F7 & F8 & F9)].
  rewrite Eq, <- Ecs in F1, F5.
  assert (Hsz : sz <= n /\ sectors n = sectors sz).
  { destruct (reg_kind _ _ _ Hr) as [(b & Hb & _)|(cs1 & w & s0 & Hb & Hw1 & Hs & Hk)].
    - pose proof (at_fun _ _ _ Hat Hb). discriminate.
    - pose proof (at_fun _ _ _ Hat Hb) as E. injection E as <-. rewrite F5 in Hw1. injection Hw1 as <-. rewrite F6 in Hs. injection Hs as <-.
      destruct Hk as [(-> & _)| -> ]; [lia|]. unfold pad2048. rewrite sectors_pad by lia. lia. }
  destruct Hsz as (Hsz & Hse).
  assert (Htb : entry_table (pl_table pl) <> []).
  { intros E. rewrite E in F8. rewrite (@len_nil byte) in F8. unfold sectors in F8. destruct (N.eqb_spec sz 0); lia. }
  destruct (F9 d (pl_sector pl) n) as (T & T1 & T2 & T3 & T4 & T5 & T6); auto.
  { specialize (Hd _ _ _ _ Hw Hat Htb). change SECTOR_SIZE with 2048 in Hd. rewrite N.mul_comm in Hd. exact Hd. }
  symmetry in F2. destruct (Permutation_map_inv _ _ F2) as (D' & -> & HD').
  destruct (Permutation_Forall2 HD' T2) as (es & E1 & E2).
  exists T, es. split; [exact T1|]. split; [symmetry; exact E1|]. split; [|split; [intros HLw; exact (T4 HLw Hse)|split; [exact T5|]]].
  2: { pose proof (Forall2_length _ _ _ E2) as L2. pose proof (Permutation_length E1) as L1. pose proof (Forall2_length _ _ _ F1) as L3. rewrite map_length in L3.
       unfold len in T6 |- *. lia. }
  assert (Hall : Forall (fun e => In (lst e) (file_listing (pl_table pl))) D').
  { apply Forall_forall. intros e He. rewrite F4. apply in_map. eapply Permutation_in; [symmetry; apply preorder_perm|].
    eapply Permutation_in; [symmetry; exact HD'|exact He]. }
  clear F2 HD' T2 E1 Hat Hat' Ecs F5 T1 T3 T4.
  remember (map p_item D') as xs eqn:Exs. clear F3. revert D' Exs Hall es E2.
  induction F1 as [|c x cs xs Hx Hi IH]; intros D' Exs Hall es E2; destruct D' as [|e D']; try discriminate.
  - inversion E2. constructor.
  - cbn in Exs. injection Exs as -> ->. inversion E2 as [|? e' ? es' (G1 & G2 & G3 & G4) HG]; subst. inversion Hall; subst.
    constructor; [|apply (IH D'); auto].
    pose proof (item_name _ _ _ Hx) as Hn. unfold row_ok. ssplit.
    + rewrite G2. exact Hn.
    + rewrite G3. unfold item_of in Hx. destruct (snd c) as [b|cs'].
      * apply bind_ok in Hx as (? & _ & Hx). injection Hx as <-. reflexivity.
      * apply bind_ok in Hx as (? & _ & Hx). apply bind_ok in Hx as (? & _ & Hx). injection Hx as <-. reflexivity.
    + rewrite G4. right. apply in_map_iff. exists (pl_path pl, lst e). cbn [fst snd lst l_name l_sector l_size r_sector r_size].
      rewrite Hn. split; auto. apply all_entries_in. eauto.
Qed.

(** Looking up an exact path gives the region that the writer recorded. *)
Lemma table_region t1 suf t2 : at_path t1 suf t2 -> suf <> [] -> forall p s n, at_path t p t1 -> In (p, (s, n)) regions ->
  exists e, lookup d (mkRegion s n) suf (Ok e) /\ name_str e = last suf [] /\ is_dir e = is_fdir t2
    /\ In (p ++ suf, (r_sector (region_of e), r_size (region_of e))) regions.
Proof.
  induction 1 as [|cs nm t1 suf t2 Hc H IH]; intros Hne p s n Hat Hr; [congruence|].
  destruct (table_view p cs s n Hat Hr) as (T & es & T1 & T2 & T3 & _).
  assert (He : exists e, In e es /\ row_ok p (nm, t1) e).
  { clear -T3 Hc. induction T3 as [|c e cs es HR HF IH]; [destruct Hc|]. destruct Hc as [->|Hc]; [exists e; cbn; auto|]. destruct (IH Hc) as (e' & ? & ?). exists e'. cbn; auto. }
  destruct He as (e & He & R1 & R2 & R3). cbn [fst snd] in *. pose proof (Permutation_in _ T2 He) as HeT.
  destruct suf as [|nm' suf'].
  - exists e. inversion H; subst. ssplit; auto. eapply lk_found; [exact T1|exact HeT|reflexivity].
  - destruct (IH ltac:(discriminate) (from_base p nm) (r_sector (region_of e)) (r_size (region_of e))) as (e' & L & E1 & E2 & E3); auto.
    { apply (at_path_snoc _ _ cs); auto. }
    exists e'. ssplit; auto.
    + eapply lk_step; [exact T1|exact HeT|rewrite R1; reflexivity|discriminate| |].
      * rewrite R2. inversion H; subst. reflexivity.
      * destruct (region_of e) as [rs1 rn1]. exact L.
    + unfold from_base in E3. rewrite <- app_assoc in E3. exact E3.
Qed.
End Tables.

Section View.
Variable d : dev.
Hypothesis Hv : forall q off b, In (q, (off, b)) wl -> b <> [] -> view d off b.

Lemma dir_view q cs s n : at_path t q (FDir cs) -> In (q, (s, n)) regions ->
  exists T es, directory d (mkRegion s n) T /\ Permutation es (inorder T) /\ Forall2 (row_ok q) cs es
    /\ (lawful d -> returns (fun fuel => scan_all fuel d (mkRegion s n)) (Ok (map in_sector (preorder T))))
    /\ balanced T /\ len cs <= 16384.
Proof. apply table_view. intros q' off b cs' Hin _. apply Hv with (q := q'). exact Hin. Qed.

Lemma image_tree t' : forall q s n, at_path t q t' -> In (q, (s, n)) regions -> holds d t' (mkRegion s n).
Proof.
  induction t' as [b|cs IH] using ftree_rect'; intros q s n Hat Hr.
  - destruct (reg_kind _ _ _ Hr) as [(b' & Hb & ->)|(cs & w & s0 & Hb & _)]; [|pose proof (at_fun _ _ _ Hat Hb); discriminate].
    pose proof (at_fun _ _ _ Hat Hb) as E. injection E as <-. constructor; [reflexivity|]. cbn [r_sector]. intros Hne.
    assert (Hin : In (q, (s * SECTOR_SIZE, b)) wl).
    { apply wl_in. right. destruct Hr as [Hr|Hr].
      - injection Hr as <- <- _. pose proof (ld_root _ _ _ _ HL) as (pl0 & pls' & E & E1 & _).
        assert (Hin : In pl0 pls) by (rewrite E; left; auto). pose proof (pl_at _ Hin) as X. rewrite E1 in X. pose proof (at_fun _ _ _ Hat X). discriminate.
      - apply in_map_iff in Hr as ([p e] & [= <- <- Hl] & Hr). cbn [fst snd] in *. apply all_entries_in in Hr as (pl & Hpl & <- & He).
        exists pl, e. ssplit; auto; [|rewrite (file_bytes_at _ _ Hat); reflexivity].
        destruct (listing_child pl e Hpl He) as (s' & x & Hc & Hi & Hsz & Hdir & Hk).
        pose proof (at_path_snoc _ _ _ _ _ (pl_at pl Hpl) Hc) as Hat'. pose proof (at_fun _ _ _ Hat Hat') as <-. rewrite Hdir, <- Hk. reflexivity. }
    specialize (Hv _ _ _ Hin Hne 0 (len b)). rewrite N.add_0_r in Hv. change SECTOR_SIZE with 2048 in Hv. rewrite N.mul_comm in Hv.
    rewrite Hv by lia. f_equal. pose proof (slice_app_l b []) as X. rewrite app_nil_r in X. exact X.
  - destruct (dir_view q cs s n Hat Hr) as (T & es & T1 & T2 & T3 & _).
    apply (holds_dir d cs _ T es T1 T2).
    assert (Hcs : forall c, In c cs -> forall r, In (from_base q (fst c), (r_sector r, r_size r)) regions -> holds d (snd c) r).
    { intros [n0 t0] Hc [rs0 rn0] Hrg. rewrite Forall_forall in IH. apply (IH (n0, t0) Hc (from_base q n0)); [apply (at_path_snoc _ _ cs); auto|exact Hrg]. }
    clear -T3 Hcs. induction T3 as [|c e cs es (R1 & R2 & R3) HF IH]; constructor.
    + ssplit; auto. apply Hcs; [left; auto|exact R3].
    + apply IH. intros c' Hc'. apply Hcs. right. exact Hc'.
Qed.

Lemma lookup_region t1 suf t2 : at_path t1 suf t2 -> suf <> [] -> forall p s n, at_path t p t1 -> In (p, (s, n)) regions ->
  exists e, lookup d (mkRegion s n) suf (Ok e) /\ name_str e = last suf [] /\ is_dir e = is_fdir t2
    /\ In (p ++ suf, (r_sector (region_of e), r_size (region_of e))) regions.
Proof. apply table_region. intros q' off b cs' Hin _. apply Hv with (q := q'). exact Hin. Qed.
End View.
End Image.
