(** Proofs about repacking well-formed images (C120). *)
From Verif Require Import M_Base M_Util M_Layout M_Avl M_Sector M_Dirtab M_Read M_Img M_Dev M_Trie M_Xfs M_Cli.
From Verif Require Import S_Avl S_Codec S_Table S_Read S_Img S_Dev S_Trie S_Xfs S_Check S_Cli S_Sectors.
From Verif Require Import P_Vm.
From Verif Require Import P_Base P_Dirtab P_Scan P_Read P_Find P_Tree P_Back P_Packed P_Pack P_Run P_Image P_File P_Witness P_More P_Order P_Dev P_Trie P_Xfs P_Repack P_Check P_Cli P_Unpack P_Fuse P_Sectors.
From Coq Require Import Init.Byte Permutation Relations Lia.
From Coq Require Import List.
Local Open Scope N_scope.

Section Tidy.
Variable d : dev.
Hypothesis HL : lawful d.
Hypothesis HR : real d.
Hypothesis HS : forall off b, d off (len b) = Ok b -> supplies d off b.

Lemma tidy_child r T e : tidy d r -> directory d r T -> In e (inorder T) -> is_dir e = true -> tidy d (region_of e).
Proof.
  intros H HD Hin He r' T' Hr HT. apply (H r' T'); auto. eapply rt_trans; [apply rt_step|exact Hr]. exists T, e. auto.
Qed.

Lemma record_of_same e e' : record_of e = record_of e' -> name_str e = name_str e' /\ is_dir e = is_dir e' /\ region_of e = region_of e'.
Proof. unfold record_of, name_str, is_dir, region_of. intros [= E1 E2]. unfold name_slice. rewrite E1, E2. auto. Qed.

Lemma tidy_scans t : forall r, contains d t r -> tidy d r \/ is_fdir t = false -> exists t', same_tree t t' /\ scans d t' r.
Proof.
  induction t as [b|cs IH] using ftree_rect'; intros r Hc HT.
  - exists (FFile b). split; [constructor|]. inversion Hc as [? ? H1 H2| |]; subst. constructor; [exact H1|]. destruct b as [|b0 b]; [intros i n' Hi Hn'; rewrite (@len_nil byte) in Hi; lia|].
    apply HS. apply H2. discriminate.
  - destruct HT as [HT|HT]; [|discriminate]. apply contains_dir_inv in Hc as [(-> & HZ)|(T & es & HD & HP & HF)].
    + exists (FDir []). split; [econstructor; [apply Permutation_refl|constructor]|]. econstructor; [|constructor].
      exists 1%nat. intros [|fuel] Hf; [lia|]. unfold scan_all, scan_dirent_tree, region_is_empty. rewrite HZ. reflexivity.
    + destruct (HT r T (rt_refl _ _ _) HD) as (es' & E1 & E2). apply (c119_lemma d HL HR) in E1.
      apply Permutation_map_inv in E2 as (es2 & E2 & E3). assert (P2 : Permutation es es2) by (rewrite HP; exact E3).
      assert (Hin2 : forall e, In e es2 -> In e (inorder T)) by (intros e He; eapply Permutation_in; [symmetry; exact E3|exact He]).
      apply F2_swap in HF. destruct (F2_perm _ _ _ P2 _ HF) as (cs' & Hcs' & HF'). apply F2_swap in HF'.
      assert (Hd : exists ds, Forall2 (fun c d => fst c = fst d /\ same_tree (snd c) (snd d)) cs' ds
         /\ Forall2 (fun c e => name_str e = fst c /\ is_dir e = is_fdir (snd c) /\ scans d (snd c) (region_of e)) ds es').
      { assert (Hin : forall c, In c cs' -> In c cs) by (intros c Hc; eapply Permutation_in; [symmetry; exact Hcs'|exact Hc]).
        clear E1 E3 P2 HP HF Hcs'. revert es' E2 Hin Hin2. induction HF' as [|c e cs1 es1 (A & B & C) HF IHF]; intros es' E2 Hin Hin2.
        - destruct es'; [|discriminate]. exists []. split; constructor.
        - destruct es' as [|e' es']; [discriminate|]. cbn [map] in E2. injection E2 as E2 E3 E4. 
          destruct (IHF es' E4) as (ds & D1 & D2); [intros c' Hc'; apply Hin; right; exact Hc'|intros e1 He1; apply Hin2; right; exact He1|]. rewrite Forall_forall in IH.
          assert (Hc : In c cs) by (apply Hin; left; auto). destruct c as [nm sub]. cbn [fst snd] in *.
          assert (K : tidy d (region_of e) \/ is_fdir sub = false).
          { destruct (is_fdir sub); [left|right; reflexivity]. eapply tidy_child; [exact HT|exact HD|apply Hin2; left; reflexivity|exact B]. }
          destruct (IH _ Hc (region_of e) C K) as (sub' & S1 & S2).
          destruct (record_of_same e' e) as (R1 & R2 & R3); [unfold record_of; congruence|].
          exists ((nm, sub') :: ds). split; [constructor; [cbn; auto|exact D1]|]. constructor; [|exact D2]. cbn [fst snd].
          rewrite R1, R2, R3. split; [exact A|]. split; [rewrite <- (same_kind _ _ S1); exact B|exact S2]. }
      destruct Hd as (ds & D1 & D2). exists (FDir ds). split; [|econstructor; eauto].
      destruct (F2_perm _ _ _ (Permutation_sym Hcs') _ D1) as (ds' & P1 & P3). econstructor; eauto.
Qed.
End Tidy.

Lemma c120_partial_lemma file d v t m cp evs : open_image file = Ok d -> read_volume d = Ok v -> contains d t (v_root v) -> tidy d (v_root v) ->
  source t -> latin_tree t -> exact_copier d cp ->
  exists t' img evs' o, same_tree t t'
   /\ returns (fun fuel => repack fuel m file_wdev d cp ([], evs)) ((img, evs'), o)
   /\ (o = Ok tt /\ readable (file_dev img) t
       \/ ~ representable m t' /\ exists e, o = Err (InvalidFileStructureError e) /\ reason m t' e).
Proof.
  intros Ho Hv Hc HT HSr HLat Hx. destruct (open_image_base _ _ Ho) as (base & _ & ->).
  destruct (tidy_scans (offset_dev (file_dev file) base)) with (t := t) (r := v_root v) as (t' & T1 & T2); auto.
  - apply offset_lawful, file_lawful.
  - intros o n. unfold offset_dev. apply file_real.
  - intros off b H. unfold offset_dev in H. pose proof (file_supplies _ _ _ H) as K. intros i n Hi Hn. unfold offset_dev. replace (off + i + base) with (off + base + i) by lia. apply K; auto.
  - destruct (repack_lemma m _ v t' cp evs Hv T2 (same_source _ _ T1 HSr) (same_latin _ _ T1 HLat) Hx) as (img & evs' & o & R1 & R2).
    exists t', img, evs', o. split; [exact T1|]. split; [exact R1|]. destruct R2 as [(_ & -> & Hpk)|R2]; [left|right; exact R2]. split; [reflexivity|].
    eapply same_readable; [exact T1|]. eapply c14_lemma; [|exact Hpk]. eapply same_source; eauto.
Qed.

(** ** Witnesses *)
(** "A", then sixteen blank bytes, then "B", its right child. *)
Definition gap_img : list byte :=
  image_of (record 0 8 34 1 32 [x41] ++ fill 16 xff ++ record 0 0 35 1 32 [x42]) ([x61] ++ fill 2047 x00 ++ [x62]).
(** "A" without children, then a record "B" that no pointer leads to. *)
Definition stale_img : list byte :=
  image_of (record 0 0 34 1 32 [x41] ++ record 0 0 35 1 32 [x42]) ([x61] ++ fill 2047 x00 ++ [x62]).
Definition names_in (img : list byte) : res rerr (list str) :=
  let* d := open_image img in let* v := read_volume d in let* l := file_tree 20 d (v_root v) in Ok (map (fun x => name_str (snd x)) l).
Definition two : ftree := FDir [([65], FFile [x61]); ([66], FFile [x62])].
Definition one : ftree := FDir [([65], FFile [x61])].
Definition ent (img : list byte) (o : N) : dentry :=
  match read_dirent (offset_dev (file_dev img) 0) o with Ok (Some e) => e | _ => mkDentry (mkDnode 0 0 (mkDdata root33 0 0)) [] 0 end.

Lemma ent_stored img o : match read_dirent (offset_dev (file_dev img) 0) o with Ok (Some _) => True | _ => False end -> o <? 2048 * 33 = false -> o <? 2048 * 33 + 2048 = true ->
  stored_in (offset_dev (file_dev img) 0) root33 (ent img o) /\ e_offset (ent img o) = o.
Proof.
  intros H H1 H2. unfold ent. destruct (read_dirent (offset_dev (file_dev img) 0) o) as [[e|]| | |] eqn:E; try contradiction.
  apply read_dirent_iff in E as (E1 & E2); [|apply offset_lawful, file_lawful]. split; [|exact E2]. split; [exact E1|]. rewrite E2. apply N.ltb_ge in H1. apply N.ltb_lt in H2. change (r_sector root33) with 33. change (r_size root33) with 2048. lia.
Qed.

Lemma open_zero img : match read_volume (offset_dev (file_dev img) 0) with Ok v => v_root v = root33 | _ => False end ->
  offset_wrapper_new (file_dev img) = Ok 0 -> forall t, is_fdir t = true -> contains (offset_dev (file_dev img) 0) t root33 -> is_image img t.
Proof.
  intros H Ho t Ht Hc. exists (offset_dev (file_dev img) 0), root33. split; [unfold open_image; rewrite Ho; reflexivity|].
  split; [|split; auto]. destruct (read_volume (offset_dev (file_dev img) 0)) as [v| | |]; try contradiction. exists v. auto.
Qed.

Lemma gap_image : is_image gap_img two.
Proof.
  apply open_zero; [vm_compute; reflexivity|vm_compute; reflexivity|reflexivity|].
  destruct (ent_stored gap_img 67584) as (S1 & O1); [vm_compute; exact I|reflexivity|reflexivity|].
  destruct (ent_stored gap_img 67616) as (S2 & O2); [vm_compute; exact I|reflexivity|reflexivity|].
  apply (ct_dir _ _ _ (Node Leaf (ent gap_img 67584) (Node Leaf (ent gap_img 67616) Leaf)) [ent gap_img 67584; ent gap_img 67616]).
  - split.
    + split; [vm_compute; reflexivity|]. split; [vm_compute; reflexivity|]. split; [exact (proj1 S1)|]. split; [vm_compute; reflexivity|]. split; [split; vm_compute; reflexivity|].
      split; [vm_compute; reflexivity|]. split; [vm_compute; reflexivity|]. split; [exact (proj1 S2)|]. vm_all.
    + repeat constructor; vm_compute; reflexivity.
  - reflexivity.
  - repeat apply Forall2_cons; [| |apply Forall2_nil]; (split; [vm_compute; reflexivity|split; [vm_compute; reflexivity|apply ct_file; [vm_compute; reflexivity|intros _; vm_compute; reflexivity]]]).
Qed.
Lemma stale_image : is_image stale_img one.
Proof.
  apply open_zero; [vm_compute; reflexivity|vm_compute; reflexivity|reflexivity|].
  destruct (ent_stored stale_img 67584) as (S1 & O1); [vm_compute; exact I|reflexivity|reflexivity|].
  apply (ct_dir _ _ _ (Node Leaf (ent stale_img 67584) Leaf) [ent stale_img 67584]).
  - split.
    + split; [vm_compute; reflexivity|]. split; [vm_compute; reflexivity|]. split; [exact (proj1 S1)|]. vm_all.
    + repeat constructor; vm_compute; reflexivity.
  - reflexivity.
  - repeat apply Forall2_cons; [|apply Forall2_nil]; (split; [vm_compute; reflexivity|split; [vm_compute; reflexivity|apply ct_file; [vm_compute; reflexivity|intros _; vm_compute; reflexivity]]]).
Qed.
Lemma collect_fuel d fuel : forall fuel' s es, (fuel <= fuel')%nat -> collect_scan fuel d s = Ok es -> collect_scan fuel' d s = Ok es.
Proof.
  induction fuel as [|fuel IH]; intros [|fuel'] s es Hf; try lia; [discriminate|discriminate|]. change (collect_scan (S fuel) d s) with (let* (o, s1) := next_entry (S fuel) d s in match o with None => Ok [] | Some e => let* es := collect_scan fuel d s1 in Ok (e :: es) end).
  change (collect_scan (S fuel') d s) with (let* (o, s1) := next_entry (S fuel') d s in match o with None => Ok [] | Some e => let* es := collect_scan fuel' d s1 in Ok (e :: es) end).
  destruct (next_entry (S fuel) d s) as [(o & s1)| | |] eqn:E; cbn [bind]; try discriminate. rewrite (next_entry_fuel d _ (S fuel') _ _ Hf E). cbn [bind].
  destruct o as [e|]; [|auto]. destruct (collect_scan fuel d s1) as [l| | |] eqn:E1; cbn [bind]; try discriminate. rewrite (IH fuel' s1 l) by (auto; lia). auto.
Qed.
Lemma scan_all_ok d fuel r es : scan_all fuel d r = Ok es -> returns (fun fuel => scan_all fuel d r) (Ok es).
Proof.
  unfold scan_all. destruct (scan_dirent_tree d r) as [s| | |]; cbn [bind]; try discriminate. intros H. exists fuel. intros k Hk. eapply collect_fuel; eauto.
Qed.
Lemma gap_scanned : exists es, scanned (file_dev gap_img) 33 1 (Ok es) /\ map name_str es = [[65]].
Proof.
  assert (H : match scan_all 9 (file_dev gap_img) root33 with Ok es => map name_str es = [[65]] | _ => False end) by (vm_compute; reflexivity).
  destruct (scan_all 9 (file_dev gap_img) root33) as [es| | |] eqn:E; try contradiction. exists es. split; [|exact H].
  apply scan_all_ok in E. apply (c119_lemma _ (file_lawful _) (file_real _)) in E. exact E.
Qed.
Definition repacked (img : list byte) : list byte * res werr unit :=
  let r := repack 100 Debug file_wdev (file_dev img) (default_copier (file_dev img) file_wdev) ([], []) in (fst (fst r), snd r).
Lemma c120_lost : snd (repacked gap_img) = Ok tt /\ names_in (fst (repacked gap_img)) = Ok [[65]].
Proof. vm_all. Qed.
Lemma c120_back : snd (repacked stale_img) = Ok tt /\ names_in (fst (repacked stale_img)) = Ok [[65]; [66]].
Proof. vm_all. Qed.

(** ** Packed images are tidy *)
Lemma stored_fun d e e' : lawful d -> stored d e -> stored d e' -> e_offset e = e_offset e' -> e = e'.
Proof. intros HL H1 H2 E. pose proof (proj2 (read_dirent_iff d _ e HL) (conj H1 eq_refl)) as K1. pose proof (proj2 (read_dirent_iff d _ e' HL) (conj H2 eq_refl)) as K2. rewrite E in K1. congruence. Qed.
Lemma tree_at_fun d r : lawful d -> forall t o t', tree_at d r o t -> tree_at d r o t' -> t = t'.
Proof.
  intros HL. induction t as [|l IHl e r0 IHr]; intros o [|l' e' r'] H H'; cbn [tree_at] in *; try contradiction.
  destruct H as (_ & H1 & H2 & H3 & H4). destruct H' as (_ & K1 & K2 & K3 & K4).
  assert (e = e') by (apply (stored_fun d); auto; congruence). subst e'. f_equal.
  - destruct l as [|ll le lr], l' as [|ll' le' lr']; auto; [lia|lia|]. eapply IHl; [exact (proj2 H3)|exact (proj2 K3)].
  - destruct r0 as [|ll le lr], r' as [|ll' le' lr']; auto; [lia|lia|]. eapply IHr; [exact (proj2 H4)|exact (proj2 K4)].
Qed.
Lemma directory_fun d r t t' : lawful d -> directory d r t -> directory d r t' -> t = t'.
Proof.
  intros HL (H & _) (H' & _). assert (G : forall l e r0, tree_at d r 0 (Node l e r0) -> ~ (d (2048 * r_sector r) 14 = Ok (fill 14 xff) \/ d (2048 * r_sector r) 14 = Ok (fill 14 x00))).
  { intros l e r0 (_ & E & (hdr & name & K1 & K2 & K3 & _) & _). rewrite E, N.add_0_r in K1. intros [K|K]; congruence. }
  destruct t as [|l e r0], t' as [|l' e' r']; auto; [exfalso; eapply G; [exact H'|apply H]|exfalso; eapply G; [exact H|apply H']|eapply tree_at_fun; eauto].
Qed.

Lemma packed_tidy m t img v : source t -> packs m t img -> read_volume (file_dev img) = Ok v -> tidy (file_dev img) (v_root v).
Proof.
  intros HS Hp Hv. destruct (packs_final m t img HS Hp) as (pls & rs & HL & ->). pose proof HS as (Ht & HP & _).
  destruct (final_volume m t pls rs HP HL) as (v' & Hv' & Hroot). rewrite Hv in Hv'. injection Hv' as <-.
  set (d := file_dev (final t pls rs)) in *. assert (HLd : lawful d) by apply file_lawful.
  pose proof (dir_view m t pls rs HP HL d (final_view m t pls rs HP HL)) as DV.
  assert (G : forall r r', clos_refl_trans_1n region (child_table d) r r' -> (exists q cs, at_path t q (FDir cs) /\ In (q, (r_sector r, r_size r)) (regs rs pls)) -> exists q cs, at_path t q (FDir cs) /\ In (q, (r_sector r', r_size r')) (regs rs pls)).
  { induction 1 as [r|r r1 r' (T & e & HD & Hin & He & ->) _ IH]; intros (q & cs & Hat & Hr); [eauto|]. apply IH.
    destruct (DV q cs _ _ Hat Hr) as (T' & es & T1 & T2 & T3 & _). destruct r as [rsec rsz]. cbn [r_sector r_size] in *.
    pose proof (directory_fun _ _ _ _ HLd HD T1) as <-. assert (Hin' : In e es) by (eapply Permutation_in; [symmetry; exact T2|exact Hin]).
    apply F2_swap in T3. destruct (f2_in_l _ _ _ T3 _ Hin') as ([nm sub] & Hc & R1 & R2 & R3). cbn [fst snd] in *. rewrite He in R2. destruct sub as [b|cs1]; [discriminate|].
    exists (from_base q nm), cs1. split; [eapply at_path_snoc; eauto|exact R3]. }
  intros r' T Hr HD. apply clos_rt_rt1n in Hr. apply G in Hr as (q & cs & Hat & Hreg).
  - destruct (DV q cs _ _ Hat Hreg) as (T' & es & T1 & T2 & T3 & T4 & _). destruct r' as [rsec rsz]. cbn [r_sector r_size] in *.
    pose proof (directory_fun _ _ _ _ HLd HD T1) as <-. specialize (T4 HLd). apply (c119_lemma d HLd (file_real _)) in T4.
    exists (map P_Scan.in_sector (S_Avl.preorder T)). split; [exact T4|]. rewrite map_map.
    replace (map (fun x => record_of (P_Scan.in_sector x)) (S_Avl.preorder T)) with (map record_of (S_Avl.preorder T)) by (apply map_ext; intros e; reflexivity).
    apply Permutation_map. apply preorder_perm.
  - rewrite Hroot. destruct t as [b|cs]; [discriminate|]. exists [], cs. split; [constructor|]. left. reflexivity.
Qed.
