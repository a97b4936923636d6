(** Properties of packed images (C14-C17, C19-C21, C23, C24). *)
From Verif Require Import M_Base M_Util M_Layout M_Avl M_Sector M_Dirtab M_Read M_Img.
From Verif Require Import S_Avl S_Codec S_Table S_Read S_Img.
From Verif Require Import P_Base P_Codec P_Layout P_Place P_Dirtab P_Table P_Read P_Path P_Find P_Term P_Witness P_Map P_Tree P_Tabs P_Disk P_Plan P_Pack P_Run P_Bytes P_Image P_File P_Back.
From Coq Require Import Init.Byte Permutation Sorted Lia.
Local Open Scope N_scope.

(** ** More fuel does not change a result *)
Lemma dir_loop_more {D} (fs : fsys D) fuel : forall k st out s s' r,
  dir_tree_loop fuel fs st out s = (s', r) -> r <> OutOfFuel -> dir_tree_loop (fuel + k) fs st out s = (s', r).
Proof.
  induction fuel as [|fuel IH]; intros k st out s s' r H Hr.
  - destruct st; cbn in H; [destruct k; exact H|]. injection H as <- <-. congruence.
  - destruct st as [|p st]; [exact H|]. cbn [dir_tree_loop Nat.add] in *. unfold pbind in *. unfold plift in *.
    destruct (map_err FilesystemHierarchyError (read_dir fs p)) as [es|x|x|]; auto. unfold report in *. apply IH; auto.
Qed.

Lemma create_more {D} m (W : wdev D) (fs : fsys D) fuel fuel' s s' r :
  create_xdvdfs_image fuel m W fs s = (s', r) -> r <> OutOfFuel -> (fuel <= fuel')%nat ->
  create_xdvdfs_image fuel' m W fs s = (s', r).
Proof.
  intros H Hr Hf. unfold create_xdvdfs_image in *. unfold pbind at 1. unfold pbind at 1 in H.
  destruct (dir_tree fuel fs s) as [s1 r1] eqn:E.
  assert (E' : r1 <> OutOfFuel -> dir_tree fuel' fs s = (s1, r1)).
  { intros Hr1. unfold dir_tree in *. replace fuel' with (fuel + (fuel' - fuel))%nat by lia. apply dir_loop_more; auto. }
  destruct r1 as [x|x|x|]; try (rewrite E' by discriminate; exact H). injection H as <- <-. congruence.
Qed.

(** ** A packed image is the laid out image *)
Lemma packs_final m t img : source t -> packs m t img -> exists pls rs, laid m t pls rs /\ img = final t pls rs.
Proof.
  intros (Ht & HP & Hs) (fs & fuel & evs & evs' & Hp & Hc & Hrun).
  pose proof (create_more m file_wdev fs fuel (fuel + S (length (dirs [] t))) _ _ _ Hrun ltac:(discriminate) ltac:(lia)) as Hrun'.
  destruct (pack_file m t HP Hs Ht) as [(pls & rs & HL & H)|(e & img' & es & Hr & H)].
  - exists pls, rs. split; auto. rewrite (H fs _ evs Hp Hc) in Hrun' by lia. injection Hrun' as <- _. reflexivity.
  - destruct (H fs (fuel + S (length (dirs [] t)))%nat evs Hp Hc) as (H1 & _); [lia|]. rewrite H1 in Hrun'. discriminate.
Qed.

Lemma desc_descriptor rs : rs < u32_modulus -> descriptor (desc_bytes rs) (mkRegion 33 rs).
Proof.
  intros H. unfold desc_bytes. set (v := volume_new (mkRegion 33 rs)).
  assert (Hw : volume_wf v).
  { unfold v. apply volume_new_wf. cbn. split; [reflexivity|exact H]. }
  assert (Hl : len (volume_ser v) = 2048) by (apply volume_ser_len; auto).
  apply descriptor_iff; auto. rewrite volume_de_ser by auto. split; reflexivity.
Qed.

Lemma body_view t pls rs m q off b z : proper t -> laid m t pls rs -> In (q, (off, b)) (wl t pls) -> b <> [] -> view (file_dev (body t pls rs ++ z)) off b.
Proof.
  intros HP HL Hin Hne o n Hon. apply file_dev_app.
  pose proof (writes_view (map snd (wl t pls) ++ [(65536, desc_bytes rs)]) [] (off, b) (wl_apart m t pls rs HP HL)) as H.
  apply H; auto. apply in_or_app. left. apply (in_map snd) in Hin. exact Hin.
Qed.

Lemma desc_len rs : len (desc_bytes rs) = 2048.
Proof. reflexivity. Qed.

Lemma desc_view t pls rs m : proper t -> laid m t pls rs -> file_dev (final t pls rs) 65536 2048 = Ok (desc_bytes rs).
Proof.
  intros HP HL. unfold final, pad. apply file_dev_app.
  pose proof (writes_view (map snd (wl t pls) ++ [(65536, desc_bytes rs)]) [] (65536, desc_bytes rs) (wl_apart m t pls rs HP HL)) as H.
  specialize (H ltac:(apply in_or_app; right; left; auto) ltac:(discriminate) 0 2048). cbn [fst snd] in H. rewrite N.add_0_r in H.
  unfold body. rewrite H by (rewrite desc_len; lia). reflexivity.
Qed.

Lemma final_holds m t pls rs : proper t -> laid m t pls rs -> holds (file_dev (final t pls rs)) t (mkRegion 33 rs).
Proof.
  intros HP HL. refine (image_tree m t pls rs HP HL (file_dev (final t pls rs)) _ t [] 33 rs (at_here _) (or_introl eq_refl)).
  intros q off b Hin Hne. unfold final, pad. eapply body_view; eauto.
Qed.

Lemma final_volume m t pls rs : proper t -> laid m t pls rs ->
  exists v, read_volume (file_dev (final t pls rs)) = Ok v /\ v_root v = mkRegion 33 rs.
Proof.
  intros HP HL. destruct (c25_lemma _ (file_lawful (final t pls rs)) (file_calm _)) as (_ & H & _).
  eapply H; [eapply desc_view; eauto|]. apply desc_descriptor. pose proof (ld_rs _ _ _ _ HL). unfold u32_modulus. lia.
Qed.

Lemma packed_image_holds m t img : source t -> packs m t img ->
  exists v, read_volume (file_dev img) = Ok v /\ holds (file_dev img) t (v_root v).
Proof.
  intros Hs Hp. destruct (packs_final m t img Hs Hp) as (pls & rs & HL & ->). destruct Hs as (_ & HP & _).
  destruct (final_volume m t pls rs HP HL) as (v & H1 & H2). exists v. split; auto. rewrite H2. eapply final_holds; eauto.
Qed.

Lemma read_held d e b : holds d (FFile b) (region_of e) -> r_size (region_of e) = len b /\ read_data_all d (d_dirent (e_node e)) = Ok b.
Proof.
  intros H. inversion H as [? ? H1 H2|]; subst. split; auto. destruct (c27_lemma d (d_dirent (e_node e))) as (A & B & _).
  unfold region_of in *. destruct b as [|x b].
  - apply A. rewrite H1. reflexivity.
  - apply B; rewrite H1; [unfold len; cbn [length]; lia|]. apply H2. discriminate.
Qed.

Lemma c14_lemma m t img : source t -> packs m t img ->
  exists v, read_volume (file_dev img) = Ok v /\
  forall segs path n t', names t segs n t' -> path_of segs path ->
  exists e, returns (fun fuel => walk_path fuel (file_dev img) (v_root v) path) (Ok e)
    /\ name_str e = n /\ is_dir e = is_fdir t'
    /\ forall b, t' = FFile b -> r_size (region_of e) = len b /\ read_data_all (file_dev img) (d_dirent (e_node e)) = Ok b.
Proof.
  intros Hs Hp. destruct (packed_image_holds m t img Hs Hp) as (v & Hv & Hh). exists v. split; auto.
  intros segs path n t' Hn Hpath. destruct (holds_found _ _ _ _ _ Hn _ Hh) as (e & L & E1 & E2 & E3).
  exists e. split; [eapply c31_lemma; eauto; apply file_lawful|]. split; [exact E1|]. split; [exact E2|].
  intros b ->. apply read_held. exact E3.
Qed.

Lemma c15_lemma m t img v segs segs' path path' : source t -> packs m t img -> read_volume (file_dev img) = Ok v ->
  path_of segs path -> path_of segs' path' -> Forall2 same_name segs segs' ->
  exists o, returns (fun fuel => walk_path fuel (file_dev img) (v_root v) path) o
    /\ returns (fun fuel => walk_path fuel (file_dev img) (v_root v) path') o.
Proof.
  intros Hs Hp Hv Hp1 Hp2 HF. destruct (packed_image_holds m t img Hs Hp) as (v' & Hv' & Hh). rewrite Hv in Hv'. injection Hv' as <-.
  destruct Hs as (Ht & _). destruct t as [b|cs]; [discriminate|].
  assert (Hne : segs <> []) by (destruct Hp1 as (? & ? & _ & _ & H & _); exact H).
  destruct (find_or_missing segs Hne cs) as [(n & t' & Hn)|(x & Hm)].
  - destruct (holds_found _ _ _ _ _ Hn _ Hh) as (e & L & E1 & E2 & E3).
    exists (Ok e). split; [eapply c31_lemma; eauto; apply file_lawful|].
    (* the other spelling leads to the same entry *)
    eapply c31_lemma; [apply file_lawful|exact Hp2|]. clear -L HF. revert segs' HF. remember (Ok e) as o eqn:Eo. revert e Eo.
    induction L as [| |r T s e HD HI HN| |r T s e segs o HD HI HN HS HF HK IH]; intros e0 Eo segs' HF'; try discriminate; inversion HF' as [|? s' ? segs2 H1 H2]; subst.
    + inversion H2; subst. injection Eo as <-. eapply lk_found; eauto. eapply same_name_trans; [apply same_name_sym; exact H1|exact HN].
    + eapply lk_step; eauto; [eapply same_name_trans; [apply same_name_sym; exact H1|exact HN]|]. intros ->. inversion H2. congruence.
  - exists (Err x). split.
    + eapply c31_lemma; [apply file_lawful|exact Hp1|]. eapply holds_missing; eauto.
    + eapply c31_lemma; [apply file_lawful|exact Hp2|]. eapply holds_missing; eauto. eapply missing_case; eauto.
Qed.

Lemma c16_lemma m t img v segs path x : source t -> packs m t img -> read_volume (file_dev img) = Ok v ->
  path_of segs path -> missing t segs x -> returns (fun fuel => walk_path fuel (file_dev img) (v_root v) path) (Err x).
Proof.
  intros Hs Hp Hv Hp1 Hm. destruct (packed_image_holds m t img Hs Hp) as (v' & Hv' & Hh). rewrite Hv in Hv'. injection Hv' as <-.
  eapply c31_lemma; [apply file_lawful|exact Hp1|]. eapply holds_missing; eauto.
Qed.

Lemma c16_total t segs : is_fdir t = true -> segs <> [] -> (exists n t', names t segs n t') \/ (exists x, missing t segs x).
Proof. intros Ht Hne. destruct t as [b|cs]; [discriminate|]. apply find_or_missing; auto. Qed.

Lemma c17_lemma m t img v : source t -> packs m t img -> read_volume (file_dev img) = Ok v ->
  exists out, returns (fun fuel => file_tree fuel (file_dev img) (v_root v)) (Ok out)
    /\ Permutation (map entry_row out) (rows [] t).
Proof.
  intros Hs Hp Hv. destruct (packed_image_holds m t img Hs Hp) as (v' & Hv' & Hh). rewrite Hv in Hv'. injection Hv' as <-.
  destruct Hs as (Ht & _). destruct (holds_rows _ t [] (v_root v) Ht Hh) as (l & L1 & L2).
  destruct (file_tree_lemma _ _ _ (file_lawful img) L1) as (out & O1 & O2). exists out. split; auto.
  rewrite <- L2. apply Permutation_map. exact O1.
Qed.

(** ** C19, C20 *)
Lemma reason_not m t e : reason m t e -> ~ representable m t.
Proof.
  intros Hr (R1 & R2 & R3 & R4). destruct e; cbn in Hr.
  - destruct Hr as (n & s & c & H1 & H2 & H3). apply H3. apply (proj2 (R1 n s H1)); auto.
  - destruct Hr as (n & s & H1 & H2). pose proof (proj1 (R1 n s H1)). lia.
  - destruct Hr as (p & cs & n1 & n2 & H1 & H2 & H3 & H4 & H5). apply H4. eapply R2; eauto.
  - destruct Hr as (p & cs & s & H1 & H2 & H3). pose proof (R4 p cs H1 s H2). lia.
  - destruct Hr as (p & b & H1 & H2). pose proof (R3 p b H1). cbv beta in *. lia.
Qed.

Lemma outcome_lemma m t fs evs : source t -> presents fs t -> copies fs t ->
  exists img evs' o, returns (fun fuel => create_xdvdfs_image fuel m file_wdev fs ([], evs)) ((img, evs'), o)
   /\ (o = Ok tt \/ exists e, o = Err (InvalidFileStructureError e) /\ reason m t e).
Proof.
  intros (Ht & HP & Hs) Hp Hc. destruct (pack_file m t HP Hs Ht) as [(pls & rs & HL & H)|(e & img' & es & Hr & H)].
  - do 3 eexists. split; [exists (S (length (dirs [] t))); intros fuel Hf; apply H; auto; lia|]. auto.
  - do 3 eexists. split; [exists (S (length (dirs [] t))); intros fuel Hf; apply H; auto; lia|]. eauto.
Qed.
