(** Proofs of C177. *)
From Verif Require Import M_Base M_Util M_Layout M_Avl M_Sector M_Dirtab M_Read M_Img M_Dev M_Trie M_Xfs M_Lin M_Cli M_Lines M_Complines.
From Verif Require Import S_Read S_Img S_Trie S_Xfs S_Lin S_Lines S_Complines.
From Verif Require Import P_Base P_Tree P_Plan P_Run P_File P_Packed P_Pack P_Dev P_Scan P_Xfs P_Repack P_Lin P_Compress P_Events P_Progress P_Lines.
From Coq Require Import Init.Byte Lia Strings.String.
From Coq Require Import List.
Local Close Scope string_scope.
Local Open Scope N_scope.

Lemma same_events m t (fs : fsys (list byte)) (fsm : fsys (list byte)) fuel img evs : source t -> presents fs t -> copies fs t -> presents fsm t ->
  create_xdvdfs_image fuel m file_wdev fs ([], []) = ((img, evs), Ok tt) ->
  exists s, returns (fun fuel => compress_layout fuel m fsm ([], [])) ((s, evs), Ok tt) /\ lin_len s = len img /\ linv t s img.
Proof.
  intros HS Hp Hc Hpm Hrun. pose proof HS as (Ht & HP & Hs).
  assert (Hpk : packs m t img) by (exists fs, fuel, [], evs; auto).
  destruct (lin_run m t img (lin_fs fsm) [] HS Hpk) as (s & evs' & R & L & I); [intros p cs Hat; exact (Hpm p cs Hat)|reflexivity|].
  exists s. ssplit; auto. enough (evs' = evs) as <- by exact R.
  pose proof (create_more m file_wdev fs fuel (fuel + Datatypes.S (length (dirs [] t))) _ _ _ Hrun ltac:(discriminate) ltac:(lia)) as Hrun'.
  destruct (packs_steps m t img HS Hpk) as (pls & rs & HL & -> & H). rewrite (H _ file_wdev fs _ [] [] Hp) in Hrun' by lia.
  unfold pbind at 1 in Hrun'. rewrite (exec_file fs t) in Hrun' by (auto; eapply steps_copies; eauto).
  cbn [finish] in Hrun'. unfold pbind at 1 in Hrun'. rewrite pad_file in Hrun'. unfold report in Hrun'. cbn [fst snd app] in Hrun'. injection Hrun' as _ <-.
  destruct R as (n & R). specialize (R (n + Datatypes.S (length (dirs [] t)))%nat ltac:(lia)).
  rewrite (H _ lin_wdev (lin_fs fsm) _ [] []) in R; [|intros p cs Hat; exact (Hpm p cs Hat)|lia]. unfold pbind at 1 in R.
  pose proof (steps_sapart m t pls rs HP HL) as (Hap & Hal).
  destruct (exec_lin (lin_fs fsm) t (all_steps t pls rs) HP eq_refl (steps_copies m t pls rs HP HL) [] [] []) as (s1 & E1 & HI1 & _); rewrite ?steps_writes; auto.
  { apply linv_nil. }
  rewrite E1 in R. cbn [finish app] in R. unfold pbind at 1 in R. destruct (pad_lin t s1 _ (flat_map se (all_steps t pls rs)) HI1) as (s2 & E2 & _).
  rewrite E2 in R. unfold report in R. cbn [fst snd] in R. injection R as _ <-. reflexivity.
Qed.


Definition added (e : event) : bool := is_dir_added e || is_file_added e.
Lemma layout_tales show evs : layout_lines show evs = map (plain_line show) (map tale_of (filter added evs)).
Proof. induction evs as [|e evs IH]; [reflexivity|]. unfold layout_lines in *. cbn [flat_map filter]. destruct e; cbn; rewrite ?IH; reflexivity. Qed.
Lemma filter_dir evs : filter is_dir_added (filter added evs) = filter is_dir_added evs.
Proof. induction evs as [|e evs IH]; [reflexivity|]. destruct e; cbn; rewrite ?IH; reflexivity. Qed.
Lemma filter_file evs : filter is_file_added (filter added evs) = filter is_file_added evs.
Proof. induction evs as [|e evs IH]; [reflexivity|]. destruct e; cbn; rewrite ?IH; reflexivity. Qed.
Lemma added_adds evs : Forall adds (filter added evs).
Proof. apply Forall_forall. intros e H. apply filter_In in H as (_ & H). apply orb_prop in H. exact H. Qed.

Lemma c177_lemma show m t fs fsm fuel img evs : source t -> presents fs t -> copies fs t -> presents fsm t ->
  create_xdvdfs_image fuel m file_wdev fs ([], []) = ((img, evs), Ok tt) ->
  exists s l v, returns (fun fuel => compress_layout fuel m fsm ([], [])) ((s, evs), Ok tt) /\ lin_len s = len img
   /\ (sector_copies fsm t -> forall k, exists b, read_sector fsm s k = Ok b /\ is_sector img k b)
   /\ layout_lines show evs = map (plain_line show) l /\ NoDup l /\ read_volume (file_dev img) = Ok v
   /\ (forall p k, In (true, p, k) l <-> exists cs r, at_path t p (FDir cs) /\ region_at (file_dev img) (v_root v) p r /\ r_sector r = k)
   /\ (forall p k, In (false, p, k) l <-> p <> [] /\ exists t' r, at_path t p t' /\ region_at (file_dev img) (v_root v) p r /\ r_sector r = k).
Proof.
  intros HS Hp Hc Hpm Hrun. destruct (same_events m t fs fsm fuel img evs HS Hp Hc Hpm Hrun) as (s & R & L & I).
  destruct (c23_lemma m t fs fuel [] img evs HS Hp Hc Hrun) as (b & v & Eb & _ & Hv & _ & _ & N1 & N2 & F1 & F2). cbn [app] in Eb.
  exists s, (map tale_of (filter added evs)), v.
  assert (E : filter added evs = filter added b) by (rewrite Eb, filter_app; cbn; apply app_nil_r).
  pose proof (added_adds b) as HA. rewrite <- E in HA. rewrite <- (filter_dir b) in N1. rewrite <- (filter_file b) in N2. rewrite <- E in N1, N2.
  assert (HI : forall e, adds e -> In e (filter added evs) <-> In e b).
  { intros e He. rewrite E, filter_In. split; [intros (X & _); exact X|]. intros X. split; [exact X|]. unfold added. destruct He as [-> | ->]; auto using orb_true_r. }
  ssplit; auto using adds_nodup, layout_tales.
  - intros Hk. apply (linv_read t); auto.
  - intros p k. rewrite <- F1. rewrite <- HI by (left; reflexivity). apply tale_in. exact HA.
  - intros p k. rewrite <- F2. rewrite <- HI by (right; reflexivity). apply tale_in. exact HA.
Qed.

(** ** From an image *)
Lemma c177_image_lemma m d v t fs fuel img evs : scans d t (v_root v) -> source t -> latin_tree t -> presents fs t -> copies fs t ->
  create_xdvdfs_image fuel m file_wdev fs ([], []) = ((img, evs), Ok tt) ->
  exists s n, lin_len s = len img /\ forall fuel, (n <= fuel)%nat -> exists c, compress_from_volume fuel m d v ([], []) = ((s, evs), Ok c).
Proof.
  intros Hsc HS HLat Hp Hc Hrun. pose proof HS as (Ht & HP & Hsm). destruct (scans_bound _ _ _ Hsc) as (k & Hk).
  assert (Hpk : packs m t img) by (exists fs, fuel, [], evs; auto).
  destruct (lin_run' m t img [] HS Hpk) as (pls & rs & s & evs' & HLd & Himg & Hr & Hlen & Hinv & Hcp).
  destruct (same_events m t fs (std_mem_fs t) fuel img evs HS Hp Hc (std_presents t HP : presents (std_mem_fs t) t) Hrun) as (s1 & (n1 & R1) & _ & _).
  assert (E : evs' = evs).
  { specialize (R1 (n1 + Datatypes.S (length (dirs [] t)))%nat ltac:(lia)). unfold compress_layout in R1.
    rewrite (Hr (lin_fs (std_mem_fs t)) (n1 + Datatypes.S (length (dirs [] t)))%nat (std_presents t HP) eq_refl ltac:(lia)) in R1. congruence. }
  subst evs'. exists s, (Nat.max k (Datatypes.S (length (dirs [] t)))). split; [exact Hlen|]. intros fuel' Hf.
  destruct (compress_split k d t v HP HLat Hk m fuel' [] [] s evs Ht ltac:(lia) ltac:(lia)) as (c & H & _).
  { intros fs' Hp' He. apply Hr; auto. lia. }
  exists c. exact H.
Qed.
