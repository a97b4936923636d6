(** The order of directory listings does not matter (C24). *)
From Verif Require Import M_Base M_Util M_Layout M_Avl M_Sector M_Dirtab M_Read M_Img.
From Verif Require Import S_Avl S_Codec S_Table S_Read S_Img.
From Verif Require Import P_Base P_Back P_Packed P_Tree P_File P_Image.
From Coq Require Import Init.Byte Permutation Lia.
Local Open Scope N_scope.

Lemma same_kind a b : same_tree a b -> is_fdir a = is_fdir b.
Proof. destruct 1; reflexivity. Qed.
Lemma same_row a b : same_tree a b -> row_size a = row_size b.
Proof. destruct 1; reflexivity. Qed.
Lemma same_fdir_l cs b : same_tree (FDir cs) b -> exists ds, b = FDir ds.
Proof. inversion 1; eauto. Qed.
Lemma same_file_l x b : same_tree (FFile x) b -> b = FFile x.
Proof. inversion 1; auto. Qed.

Lemma same_child cs ds n s : same_tree (FDir cs) (FDir ds) -> In (n, s) cs -> exists s', In (n, s') ds /\ same_tree s s'.
Proof.
  inversion 1 as [|? ? ds' HP HF]; subst. intros Hin.
  assert (H' : exists s', In (n, s') ds' /\ same_tree s s').
  { revert Hin. clear HP H. induction HF as [|[n1 s1] [n2 s2] l l' [E1 E2] HF IH]; intros Hin; [destruct Hin|]. cbn in *. destruct Hin as [[= -> ->]|Hin].
    - subst. eauto.
    - destruct IH as (s' & H1 & H2); eauto. }
  destruct H' as (s' & H1 & H2). exists s'. split; auto. eapply Permutation_in; [symmetry; exact HP|exact H1].
Qed.
Lemma same_child_back cs ds n s' : same_tree (FDir cs) (FDir ds) -> In (n, s') ds -> exists s, In (n, s) cs /\ same_tree s s'.
Proof.
  inversion 1 as [|? ? ds' HP HF]; subst. intros Hin. apply (Permutation_in _ HP) in Hin. clear HP H.
  induction HF as [|[n1 s1] [n2 s2] l l' [E1 E2] HF IH]; [destruct Hin|]. cbn in *. destruct Hin as [[= -> ->]|Hin].
  - subst. eauto.
  - destruct IH as (s & H1 & H2); auto. eauto.
Qed.

Lemma same_names t segs n s : names t segs n s -> forall t', same_tree t t' -> exists s', names t' segs n s' /\ same_tree s s'.
Proof.
  induction 1 as [cs x n t Hin Hx|cs x n cs' segs n' t Hin Hx Hn IH]; intros t' Hs; destruct (same_fdir_l _ _ Hs) as (ds & ->).
  - destruct (same_child _ _ _ _ Hs Hin) as (s' & H1 & H2). exists s'. split; auto. constructor; auto.
  - destruct (same_child _ _ _ _ Hs Hin) as (s' & H1 & H2). destruct (same_fdir_l _ _ H2) as (ds' & ->).
    destruct (IH _ H2) as (s'' & H3 & H4). exists s''. split; auto. eapply nm_step; eauto.
Qed.
Lemma same_missing t segs x : missing t segs x -> forall t', same_tree t t' -> missing t' segs x.
Proof.
  induction 1 as [cs s segs Hno|cs s n b segs Hin Hx Hne|cs s n cs' segs e Hin Hx Hm IH]; intros t' Hs; destruct (same_fdir_l _ _ Hs) as (ds & ->).
  - constructor. intros n s' Hin. destruct (same_child_back _ _ _ _ Hs Hin) as (s0 & H1 & _). eauto.
  - destruct (same_child _ _ _ _ Hs Hin) as (s' & H1 & H2). apply same_file_l in H2 as ->. eapply ms_file; eauto.
  - destruct (same_child _ _ _ _ Hs Hin) as (s' & H1 & H2). destruct (same_fdir_l _ _ H2) as (ds' & ->). eapply ms_step; eauto.
Qed.

Lemma concat_perm {A} (a b : list (list A)) : Permutation a b -> Permutation (concat a) (concat b).
Proof.
  induction 1; cbn; auto.
  - apply Permutation_app_head. auto.
  - rewrite !app_assoc. apply Permutation_app_tail, Permutation_app_comm.
  - etransitivity; eauto.
Qed.

Lemma same_rows t : forall t' p, same_tree t t' -> Permutation (rows p t) (rows p t').
Proof.
  induction t as [b|cs IH] using ftree_rect'; intros t' p H; [apply same_file_l in H as ->; reflexivity|].
  inversion H as [|? ds ds' HP HF]; subst. cbn [rows]. apply Permutation_app.
  - transitivity (map (fun c => (p, fst c, row_size (snd c))) ds'); [|apply Permutation_map; symmetry; exact HP].
    clear - HF. induction HF as [|c d l l' [E1 E2] HF IH]; cbn; auto. rewrite E1, (same_row _ _ E2), IH. reflexivity.
  - transitivity (concat (map (fun c => rows (p ++ [47] ++ fst c) (snd c)) ds')); [|apply concat_perm, Permutation_map; symmetry; exact HP].
    clear - HF IH. induction HF as [|c d l l' [E1 E2] HF IH']; [reflexivity|]. apply Forall_cons_iff in IH as (IH1 & IH2).
    cbn [map concat]. rewrite (IH' IH2). apply Permutation_app_tail. destruct c as [n s], d as [n' s']. cbn [fst snd] in *. subst n'. apply IH1. exact E2.
Qed.

Lemma c24_lemma m m' t t' img img' v v' : source t -> source t' -> same_tree t t' -> packs m t img -> packs m' t' img' ->
  read_volume (file_dev img) = Ok v -> read_volume (file_dev img') = Ok v' ->
  (forall segs path, path_of segs path ->
     (exists x, returns (fun fuel => walk_path fuel (file_dev img) (v_root v) path) (Err x)
             /\ returns (fun fuel => walk_path fuel (file_dev img') (v_root v') path) (Err x))
     \/ (exists e e', returns (fun fuel => walk_path fuel (file_dev img) (v_root v) path) (Ok e)
             /\ returns (fun fuel => walk_path fuel (file_dev img') (v_root v') path) (Ok e')
             /\ name_str e = name_str e' /\ is_dir e = is_dir e'
             /\ (is_dir e = false -> r_size (region_of e) = r_size (region_of e')
                  /\ exists b, read_data_all (file_dev img) (d_dirent (e_node e)) = Ok b /\ read_data_all (file_dev img') (d_dirent (e_node e')) = Ok b)))
  /\ exists out out', returns (fun fuel => file_tree fuel (file_dev img) (v_root v)) (Ok out)
       /\ returns (fun fuel => file_tree fuel (file_dev img') (v_root v')) (Ok out')
       /\ Permutation (map entry_row out) (map entry_row out').
Proof.
  intros S1 S2 Hsame P1 P2 V1 V2. split.
  - intros segs path Hp. assert (Hne : segs <> []) by (destruct Hp as (? & ? & _ & _ & H & _); exact H).
    destruct (c16_total t segs ltac:(apply S1) Hne) as [(n & s & Hn)|(x & Hm)].
    + right. destruct (same_names _ _ _ _ Hn _ Hsame) as (s' & Hn' & Hs').
      destruct (c14_lemma _ _ _ S1 P1) as (w & W & H1). rewrite V1 in W. injection W as <-.
      destruct (c14_lemma _ _ _ S2 P2) as (w & W & H2). rewrite V2 in W. injection W as <-.
      destruct (H1 _ _ _ _ Hn Hp) as (e & R1 & E1 & K1 & F1). destruct (H2 _ _ _ _ Hn' Hp) as (e' & R2 & E2 & K2 & F2).
      exists e, e'. split; [exact R1|]. split; [exact R2|]. split; [congruence|]. split; [rewrite K1, K2; apply same_kind; exact Hs'|].
      rewrite K1. intros K. destruct s as [b|cs]; [|discriminate]. pose proof (same_file_l _ _ Hs') as ->.
      destruct (F1 _ eq_refl) as (L1 & D1). destruct (F2 _ eq_refl) as (L2 & D2). split; [congruence|]. exists b. auto.
    + left. exists x. split; [eapply c16_lemma; [exact S1|exact P1|exact V1|exact Hp|exact Hm]|].
      eapply c16_lemma; [exact S2|exact P2|exact V2|exact Hp|]. eapply same_missing; eauto.
  - destruct (c17_lemma _ _ _ _ S1 P1 V1) as (out & O1 & O2). destruct (c17_lemma _ _ _ _ S2 P2 V2) as (out' & O1' & O2').
    exists out, out'. split; [exact O1|]. split; [exact O1'|]. rewrite O2, O2'. apply same_rows. exact Hsame.
Qed.
