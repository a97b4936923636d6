(** Proofs about mounting well-formed images of any origin (C121). *)
From Verif Require Import M_Base M_Util M_Layout M_Read M_Img M_Cli M_Fuse.
From Verif Require Import S_Avl S_Codec S_Read S_Img S_Check S_Cli S_Fuse S_Sectors.
From Verif Require Import P_Base P_Read P_Find P_Witness P_Check P_Ext P_Cli P_Unpack P_Fuse P_Sectors P_Tidy.
From Coq Require Import Init.Byte Permutation Relations Lia.
From Coq Require Import List.
Local Open Scope N_scope.

Lemma lookup_reaches d r segs o : lookup d r segs o -> forall e, o = Ok e -> is_dir e = true -> clos_refl_trans region (child_table d) r (region_of e).
Proof.
  induction 1 as [| |r T s e HD Hin Hn| |r T s e segs o HD Hin Hn Hne He HK IH]; intros e0 E Hd; try discriminate.
  - injection E as <-. apply rt_step. exists T, e. auto.
  - eapply rt_trans; [apply rt_step; exists T, e; split; [exact HD|split; [exact Hin|split; [exact He|reflexivity]]]|]. apply IH; auto.
Qed.

Lemma tidy_listing img d r t fs segs ino fs' cs : opens_as img d r t -> tidy d r -> mounted img fs -> found_at fs segs ino fs' ->
  Forall component segs -> selected t segs (FDir cs) ->
  mounted img fs' /\ exists rp es fuel, dirtab_by_inode fs' ino = Some rp /\ scan_all fuel (m_dev fs') rp = Ok es
    /\ Permutation (map entry_shown es) (map child_shown cs).
Proof.
  intros HO HT HM HF HC HS. destruct (found_denotes _ _ _ _ HO _ _ _ _ HM HF) as (M' & K). specialize (K HC _ HS). split; auto.
  destruct (mounted_dev _ _ _ _ HO _ M') as (G & Ed & Er). pose proof (shown_lawful _ _ _ _ HO) as HL.
  assert (HR : real d) by (destruct HO as (A & _); destruct (open_image_base _ _ A) as (base & _ & ->); intros o n; unfold offset_dev; apply file_real).
  assert (X : exists rp, dirtab_by_inode fs' ino = Some rp /\ contains d (FDir cs) rp /\ clos_refl_trans region (child_table d) r rp).
  { destruct (denotes_dir _ _ _ _ HO _ _ _ _ M' K) as (rp & T & C & _). exists rp. ssplit; auto. destruct K as [(-> & -> & E)|(e & D & L & C' & Hd)].
    - unfold dirtab_by_inode in T. rewrite N.eqb_refl, Er in T. injection T as <-. apply rt_refl.
    - cbn [is_fdir] in Hd. replace rp with (region_of e); [eapply lookup_reaches; eauto|]. unfold dirent_by_inode in D. unfold dirtab_by_inode in T. destruct (ino =? 1); [discriminate|].
      destruct (M_Fuse.node_of _ ino) as [e'|]; [|discriminate]. injection D as ->. rewrite is_dir_table, Hd in T. injection T as <-. reflexivity. }
  destruct X as (rp & T & C & Hreach). exists rp. apply contains_dir_inv in C as [(-> & HZ)|(TT & es & HD & HP & HA)].
  - exists [], 1%nat. split; [exact T|]. split; [|reflexivity]. unfold scan_all, scan_dirent_tree. rewrite (proj2 (region_empty_iff rp) HZ). reflexivity.
  - destruct (HT rp TT Hreach HD) as (es' & E1 & E2). apply (c119_lemma d HL HR) in E1 as (k & E1). exists es', k. split; [exact T|]. rewrite Ed. split; [apply E1; lia|].
    apply (Permutation_map (fun x => entry_shown (mkDentry (fst x) (snd x) 0))) in E2. rewrite !map_map in E2. 
    change (Permutation (map entry_shown es') (map entry_shown (inorder TT))) in E2. rewrite E2, <- HP.
    replace (map child_shown cs) with (map entry_shown es); [reflexivity|].
    clear -HA. induction HA as [|c e cs es (A & B & _) HF IH]; cbn [map]; [reflexivity|]. rewrite IH. unfold entry_shown, child_shown. rewrite A, B. reflexivity.
Qed.

Lemma c121_partial_lemma img d r t fs segs ino fs' cs l fs2 : opens_as img d r t -> tidy d r -> mounted img fs -> found_at fs segs ino fs' ->
  Forall component segs -> selected t segs (FDir cs) -> reads_dir ino fs' 0 l fs2 ->
  exists rest, map shown l = dots ++ rest /\ Permutation rest (map child_shown cs).
Proof.
  intros HO HT HM HF HC HS HL. destruct (tidy_listing _ _ _ _ _ _ _ _ _ HO HT HM HF HC HS) as (M' & rp & es & k & T & A & P).
  exists (map entry_shown es). split; auto. eapply c53_lemma; eauto.
Qed.

Lemma c121_gap : mounted gap_img (fresh gap_img)
  /\ (exists l, snd (fuse_readdir 20 (fresh gap_img) 1 0 (fun _ _ => false)) = Ok l /\ map rd_name l = [[46]; [46; 46]; [65]])
  /\ exists a, snd (fuse_lookup 20 (fresh gap_img) 1 [66]) = Ok a.
Proof.
  split; [apply fresh_mounted; vm_compute; reflexivity|]. split.
  - eexists. split; [vm_compute; reflexivity|reflexivity].
  - eexists. vm_compute. reflexivity.
Qed.
Lemma c121_stale : mounted stale_img (fresh stale_img)
  /\ (exists l, snd (fuse_readdir 20 (fresh stale_img) 1 0 (fun _ _ => false)) = Ok l /\ map rd_name l = [[46]; [46; 46]; [65]; [66]])
  /\ snd (fuse_lookup 20 (fresh stale_img) 1 [66]) = Err EIO.
Proof.
  split; [apply fresh_mounted; vm_compute; reflexivity|]. split.
  - eexists. split; [vm_compute; reflexivity|reflexivity].
  - vm_compute. reflexivity.
Qed.

Lemma tidy_ext d d' r : (forall o n, d o n = d' o n) -> lawful d -> real d -> tidy d r -> tidy d' r.
Proof.
  intros E HL HR HT. assert (E' : forall o n, d' o n = d o n) by (intros; symmetry; auto).
  assert (HL' : lawful d') by (intros o n bs; rewrite E'; apply HL). assert (HR' : real d') by (intros o n; rewrite E'; apply HR).
  assert (HC : forall r r', clos_refl_trans region (child_table d') r r' -> clos_refl_trans region (child_table d) r r').
  { induction 1 as [r1 r2 (T & e & K1 & K2)|r1|r1 r2 r3 _ IH1 _ IH2]; [apply rt_step; exists T, e; split; [apply (directory_ext d' d E'); exact K1|exact K2]|apply rt_refl|eapply rt_trans; eauto]. }
  intros r' T Hr HD. destruct (HT r' T (HC _ _ Hr)) as (es & E1 & E2); [apply (directory_ext d' d E'); exact HD|]. exists es. split; [|exact E2].
  apply (c119_lemma d HL HR) in E1 as (k & E1). apply (c119_lemma d' HL' HR'). exists k. intros fuel Hf. rewrite <- (scan_all_ext d d' E). apply E1. exact Hf.
Qed.
Lemma packed_opens_tidy m t img : source t -> packs m t img -> exists d v, opens_as img d (v_root v) t /\ tidy d (v_root v).
Proof.
  intros Hs Hp. destruct (packed_opens m t img Hs Hp) as (v & Hv & HO). exists (offset_dev (file_dev img) 0), v. split; [exact HO|].
  apply (tidy_ext (file_dev img)); [intros; unfold offset_dev; rewrite N.add_0_r; reflexivity|apply file_lawful|apply file_real|]. eapply packed_tidy; eauto.
Qed.
