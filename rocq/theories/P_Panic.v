(** Packing from an image with a name outside of Latin-1 panics (C41). *)
From Verif Require Import M_Base M_Util M_Layout M_Avl M_Sector M_Dirtab M_Read M_Img M_Dev M_Trie M_Xfs.
From Verif Require Import S_Avl S_Codec S_Table S_Read S_Img S_Dev S_Trie S_Xfs.
From Verif Require Import P_Base P_Bytes P_Dirtab P_Witness P_Scan P_Tree P_Pack P_Image P_Packed P_File P_Run P_More P_Order P_Dev P_Trie P_Xfs P_Repack P_Web.
From Coq Require Import Init.Byte Permutation Lia.
Local Open Scope N_scope.

Lemma latin_dec n : latin n \/ ~ latin n.
Proof.
  induction n as [|c n [IH|IH]]; [left; constructor| |right; intros H; apply IH; inversion H; auto].
  destruct (N.lt_ge_cases c 256); [left; constructor; auto|right; intros X; inversion X; lia].
Qed.
Lemma names_dec (cs : list (str * ftree)) : (forall n s, In (n, s) cs -> latin n) \/ exists n s, In (n, s) cs /\ ~ latin n.
Proof.
  induction cs as [|[n s] cs [IH|(n' & s' & H1 & H2)]]; [left; intros n s []| |right; exists n', s'; split; [right; exact H1|exact H2]].
  destruct (latin_dec n); [left|right; exists n, s; split; [left; reflexivity|assumption]].
  intros n' s' [[= <- <-]|Hin]; [assumption|eauto].
Qed.

Lemma insert_panics {T E} (t : trie T) s v f : ~ latin s -> insert_tail (E:=E) t s v f = Panic PIndex.
Proof.
  revert t. induction s as [|c s IH]; intros t H; [exfalso; apply H; constructor|]. cbn [insert_tail]. unfold child.
  destruct (N.ltb_spec c 256) as [Hc|Hc]; [|reflexivity]. cbn [bind]. rewrite IH; [reflexivity|]. intros HL. apply H. constructor; auto.
Qed.

Lemma list_loop_panics d fuel : forall s es c, collect_scan fuel d s = Ok es -> (exists e, In e es /\ ~ latin (name_str e)) ->
  snd (list_loop fuel d s c) = Panic PIndex.
Proof.
  induction fuel as [|fuel IH]; intros s es c H (e0 & Hin & Hn); [discriminate|]. cbn [collect_scan list_loop] in *.
  destruct (next_entry (S fuel) d s) as [[[e|] s']| | |]; cbn [bind] in H; try discriminate.
  - destruct (collect_scan fuel d s') as [es'| | |] eqn:Ec; cbn [bind] in H; try discriminate. injection H as <-.
    destruct (latin_dec (name_str e)) as [HL|HL]; [|rewrite insert_panics by exact HL; reflexivity].
    destruct Hin as [<-|Hin]; [contradiction|].
    destruct (insert_entries_val [e] ltac:(constructor; auto) c) as (c' & E1 & _). cbn [insert_entries] in E1.
    destruct (insert_tail c (name_str e) e (fun x => Ok x)) as [c1| | |]; cbn [bind] in E1; try discriminate.
    specialize (IH s' es' c1 Ec (ex_intro _ e0 (conj Hin Hn))). destruct (list_loop fuel d s' c1) as [c2 r]. cbn [snd] in *. rewrite IH. reflexivity.
  - injection H as <-. destruct Hin.
Qed.

Section Panic.
Variables (k : nat) (d : dev) (t : ftree) (v : volume).
Notation root := (v_root v).
Hypothesis HP : proper t.
Hypothesis HS : scans_n k d t root.

Lemma read_dir_panics sf c done p cs : (k <= sf)%nat -> good k d t v c done -> at_path t p (FDir cs) -> (p = [] \/ val c p <> None) ->
  latin_path p -> (exists n s, In (n, s) cs /\ ~ latin n) -> snd (xfs_read_dir sf d v c p) = Panic PIndex.
Proof.
  intros Hsf Hg Hat Hc Hlp (n & s & Hin & Hn).
  destruct (reg_at_ok k d t v HP HS _ _ Hat) as (r & Hr & Hs). inversion Hs as [|? ? es Hscan Hrows]; subst.
  destruct (dir_found k d t v HP HS c done p cs r Hg Hlp Hat Hc Hr) as (node & Hnode & Hf).
  assert (Hscan' := Hscan sf Hsf). unfold scan_all in Hscan'. destruct (scan_dirent_tree d r) as [s0| | |] eqn:Es0; cbn [bind] in Hscan'; try discriminate.
  assert (Hbad : exists e, In e es /\ ~ latin (name_str e)).
  { clear - Hrows Hin Hn. induction Hrows as [|c e cs es (A & _) HF IH]; [destruct Hin|]. destruct Hin as [->|Hin]; [exists e; rewrite A; split; [left; auto|exact Hn]|].
    destruct (IH Hin) as (e' & H1 & H2). exists e'. split; [right; exact H1|exact H2]. }
  unfold xfs_read_dir. rewrite Hf. cbn [bind]. rewrite Es0. cbn [bind]. pose proof (list_loop_panics d sf s0 es node Hscan' Hbad) as H.
  destruct (list_loop sf d s0 node) as [c' r']. exact H.
Qed.

Lemma loop_panics {D} sf copy fuel : (k <= sf)%nat -> forall dirs c out s s' out', good k d t v c (map fst out) ->
  (forall p, In p dirs -> exists cs, at_path t p (FDir cs) /\ (p = [] \/ val c p <> None) /\ latin_path p) ->
  (forall p cs, In p (map fst out) -> at_path t p (FDir cs) -> forall n s, In (n, s) cs -> latin n) ->
  dir_tree_loop fuel (mkFsys D (ref_read_dir k d root) copy) dirs out s = (s', Ok out') ->
  snd (xfs_dir_loop fuel sf d v c dirs out s) = Panic PIndex
  \/ (forall p cs, In p (map fst out') -> at_path t p (FDir cs) -> forall n s, In (n, s) cs -> latin n).
Proof.
  intros Hsf. induction fuel as [|fuel IH]; intros dirs c out s s' out' Hg Hst Hout Hrun.
  - destruct dirs; cbn in Hrun; [|discriminate]. injection Hrun as <- <-. right. exact Hout.
  - destruct dirs as [|dir dirs]; [cbn in Hrun; injection Hrun as <- <-; right; exact Hout|].
    destruct (Hst dir (or_introl eq_refl)) as (cs & Hat & Hc & Hlp).
    destruct (names_dec cs) as [Hn|Hn].
    2: { left. pose proof (read_dir_panics sf c (map fst out) dir cs Hsf Hg Hat Hc Hlp Hn) as H. cbn [xfs_dir_loop].
         destruct (xfs_read_dir sf d v c dir) as [c' r']. cbn [snd] in H. subst r'. reflexivity. }
    destruct (read_dir_good k d t v HP HS sf c (map fst out) dir cs Hsf Hg Hat Hc Hlp Hn) as (c1 & es & R1 & R2 & R3 & R4 & R5).
    cbn [dir_tree_loop xfs_dir_loop read_dir] in *. rewrite R1. rewrite R2 in Hrun. unfold pbind, plift, report in *. cbn [map_err] in *.
    apply (IH _ c1) in Hrun.
    + exact Hrun.
    + rewrite map_app. exact R4.
    + intros p Hp. apply push_in in Hp as [Hp|(e & He & Et & ->)].
      * destruct (Hst p (or_intror Hp)) as (cs' & H1 & H2 & H3). exists cs'. ssplit; auto. destruct H2; [left; auto|right; apply R5; auto].
      * assert (Hc' : exists n s0, In (n, s0) cs /\ lists_as e (n, s0)).
        { clear - R3 He. induction R3 as [|e' [n s0] es cs H HF IH]; [destruct He|]. destruct He as [->|He]; [exists n, s0; split; [left; auto|exact H]|].
          destruct (IH He) as (n1 & s1 & H1 & H2). exists n1, s1. split; [right; exact H1|exact H2]. }
        destruct Hc' as (n & s0 & Hin & Hn' & Hk). cbn [fst snd] in *. rewrite Et in Hk. destruct s0 as [b|cs']; [destruct Hk; discriminate|].
        rewrite Hn'. exists cs'. split; [eapply at_path_snoc; eauto|]. split; [|apply Forall_app; split; [exact Hlp|constructor; [eapply Hn; eauto|constructor]]].
        right. apply (g_done _ _ _ _ _ _ R4 dir cs n (FDir cs')); auto. apply in_or_app. right. left. auto.
    + intros p cs' Hp Hat'. rewrite map_app in Hp. apply in_app_or in Hp as [Hp|[<-|[]]]; [eapply Hout; eauto|].
      cbn [fst] in Hat'. assert (FDir cs' = FDir cs) as [= ->] by (eapply (at_same t); eauto). exact Hn.
Qed.

Lemma volume_panics {D} m (W : wdev D) (cp : copier D) fuel st evs : is_fdir t = true -> (k <= fuel)%nat -> (length (dirs [] t) < fuel)%nat ->
  ~ latin_tree t -> snd (create_from_volume fuel m W d v cp (st, evs)) = Panic PIndex.
Proof.
  intros Ht Hk Hf Hn. set (fs0 := mkFsys D (ref_read_dir k d root) (fun _ d' _ _ _ => (d', Ok 0))).
  assert (Hp0 : presents fs0 t) by (apply ref_presents; assumption).
  pose proof (dir_tree_ok fs0 t fuel st evs Ht Hp0 Hf) as Hrun.
  assert (Hst : forall p, In p [[]] -> exists cs, at_path t p (FDir cs) /\ (p = [] \/ val (trie_default (T:=dentry)) p <> None) /\ latin_path p).
  { intros p [<-|[]]. destruct t as [|cs]; [discriminate|]. exists cs. ssplit; [constructor|left; reflexivity|constructor]. }
  assert (Hnil : forall p cs, In p (map fst (@nil (path * list fentry))) -> at_path t p (FDir cs) -> forall n s, In (n, s) cs -> latin n) by (intros p cs []).
  destruct (loop_panics fuel _ fuel Hk [[]] trie_default [] (st, evs) _ _ (good_empty k d t v) Hst Hnil Hrun) as [H|H].
  - unfold create_from_volume, pbind. destruct (xfs_dir_loop _ _ _ _ _ _ _ _) as [s r]. cbn [snd] in H. subst r. reflexivity.
  - exfalso. apply Hn. intros n s (p & cs & Hat & Hin). eapply H; [|exact Hat|exact Hin].
    unfold found. rewrite map_map. apply (in_map fst) with (x := (p, cs)). apply dirs_root. exact Hat.
Qed.
End Panic.

(** The name of an entry decides. *)
Lemma c41_scans {D} m (W : wdev D) d v t cp st evs : read_volume d = Ok v -> scans d t (v_root v) -> is_fdir t = true -> proper t -> ~ latin_tree t ->
  exists k, forall fuel, (k <= fuel)%nat -> snd (repack fuel m W d cp (st, evs)) = Panic PIndex.
Proof.
  intros Hv Hs Ht HP Hn. destruct (scans_bound _ _ _ Hs) as (k & Hk). exists (Nat.max k (S (length (dirs [] t)))). intros fuel Hf.
  unfold repack. rewrite Hv. apply (volume_panics k d t v HP Hk); auto; lia.
Qed.
Lemma c41_panics {D} m m' (W : wdev D) t img cp st evs : source t -> packs m t img -> ~ latin_tree t ->
  exists k, forall fuel, (k <= fuel)%nat -> snd (repack fuel m' W (file_dev img) cp (st, evs)) = Panic PIndex.
Proof.
  intros HS Hp Hn. destruct (packs_final m t img HS Hp) as (pls & rs & HL & ->). pose proof HS as (Ht & HP & Hsm).
  destruct (final_volume m t pls rs HP HL) as (v & Hv & Hroot).
  destruct (packed_scans m t pls rs HP HL t [] 33 rs (at_here _) (or_introl eq_refl)) as (t' & Hsame & Hsc). rewrite <- Hroot in Hsc.
  destruct (same_source _ _ Hsame HS) as (Ht' & HP' & _).
  eapply c41_scans; eauto. intros HL'. apply Hn. eapply same_latin; [|exact HL']. apply same_sym. exact Hsame.
Qed.
Lemma c41_lemma m m' t img cp evs : source t -> packs m t img -> exact_copier (file_dev img) cp ->
  (latin_tree t -> exists k, forall fuel, (k <= fuel)%nat -> forall p, snd (repack fuel m' file_wdev (file_dev img) cp ([], evs)) <> Panic p)
  /\ (~ latin_tree t -> exists k, forall fuel, (k <= fuel)%nat -> snd (repack fuel m' file_wdev (file_dev img) cp ([], evs)) = Panic PIndex).
Proof.
  intros HS Hp Hx. split; [|intros Hn; eapply c41_panics; eauto].
  intros HL. destruct (c40_lemma m m' t img cp evs HS HL Hp Hx) as (t' & img' & evs' & o & _ & (k & Hk) & H). exists k. intros fuel Hf p.
  rewrite Hk by exact Hf. cbn [snd]. destruct H as [(-> & _)|(-> & _)]; discriminate.
Qed.
