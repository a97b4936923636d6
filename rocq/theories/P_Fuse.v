(** Proofs about the FUSE file system. *)
From Verif Require Import M_Base M_Util M_Layout M_Dirtab M_Read M_Img M_Check M_Remap M_Cli M_Fuse.
From Verif Require Import S_Avl S_Codec S_Table S_Read S_Img S_Check S_Cli S_Fuse.
From Verif Require Import P_Vm.
From Verif Require Import P_Base P_Codec P_Read P_Path P_Find P_Term P_Tree P_Back P_Packed P_More P_Check P_Ext P_Witness P_Layout P_Mono P_Image P_Cli.
From Coq Require Import Init.Byte Permutation Lia.
From Coq Require Import List.
Local Open Scope N_scope.

(** ** Inode numbers *)
Lemma dentry_eqb_spec a b : dentry_eqb a b = true <-> a = b.
Proof.
  destruct a as [[l r [[s z] at' nl]] nm o], b as [[l2 r2 [[s2 z2] at2 nl2]] nm2 o2].
  unfold dentry_eqb, dnode_eqb, ddata_eqb, region_eqb. cbn. rewrite !Bool.andb_true_iff, !N.eqb_eq, bytes_eqb_spec. split.
  - intros H. decompose [and] H. congruence.
  - intros [=]. subst. tauto.
Qed.

Record good (c : icache) : Prop := {
  g_num : forall e i, number_of (ic_numbers c) e = Some i -> node_of (ic_nodes c) i = Some e;
  g_node : forall e i, node_of (ic_nodes c) i = Some e -> number_of (ic_numbers c) e = Some i;
  g_next : forall e i, node_of (ic_nodes c) i = Some e -> 2 <= i < ic_next c;
  g_two : 2 <= ic_next c }.
Definition keeps (c c' : icache) : Prop := forall i e, node_of (ic_nodes c) i = Some e -> node_of (ic_nodes c') i = Some e.
Lemma keeps_trans a b c : keeps a b -> keeps b c -> keeps a c.
Proof. unfold keeps. auto. Qed.

Lemma good_new : good cache_new.
Proof. split; cbn; try discriminate; lia. Qed.

Lemma assign_good c e c' i : good c -> get_or_assign c e = (c', i) -> good c' /\ keeps c c' /\ node_of (ic_nodes c') i = Some e.
Proof.
  intros G. unfold get_or_assign. destruct (number_of (ic_numbers c) e) as [j|] eqn:E; intros [= <- <-].
  - split; auto. split; [intros ? ? H; exact H|]. apply (g_num c G); auto.
  - assert (K : forall j e', node_of (ic_nodes c) j = Some e' -> (ic_next c =? j) = false).
    { intros j e' H. apply (g_next c G) in H. apply N.eqb_neq. lia. }
    split; [|split].
    + split; cbn [ic_nodes ic_numbers ic_next number_of node_of].
      * intros e' j. destruct (dentry_eqb e e') eqn:Q.
        -- apply dentry_eqb_spec in Q. intros [= <-]. rewrite N.eqb_refl. congruence.
        -- intros H. apply (g_num c G) in H. rewrite (K _ _ H). exact H.
      * intros e' j. destruct (ic_next c =? j) eqn:Q.
        -- apply N.eqb_eq in Q. intros [= <-]. replace (dentry_eqb e e) with true by (symmetry; apply dentry_eqb_spec; reflexivity). congruence.
        -- intros H. pose proof (g_node c G _ _ H) as H'. destruct (dentry_eqb e e') eqn:Q'; auto. apply dentry_eqb_spec in Q'. subst. congruence.
      * intros e' j. destruct (ic_next c =? j) eqn:Q.
        -- apply N.eqb_eq in Q. intros _. pose proof (g_two c G). lia.
        -- intros H. apply (g_next c G) in H. lia.
      * pose proof (g_two c G). lia.
    + intros j e' H. cbn. rewrite (K _ _ H). exact H.
    + cbn. rewrite N.eqb_refl. reflexivity.
Qed.

Definition same_image (fs fs' : mount) : Prop := m_dev fs' = m_dev fs /\ m_root fs' = m_root fs.
Definition evolves (fs fs' : mount) : Prop :=
  same_image fs fs' /\ (good (m_cache fs) -> good (m_cache fs') /\ keeps (m_cache fs) (m_cache fs')).
Lemma evolves_refl fs : evolves fs fs.
Proof. split; [split; reflexivity|]. intros G. split; auto. intros i e H; exact H. Qed.
Lemma evolves_trans a b c : evolves a b -> evolves b c -> evolves a c.
Proof.
  intros ((A & A') & B) ((C & C') & D). split; [split; congruence|]. intros G. destruct (B G) as (G1 & K1). destruct (D G1) as (G2 & K2).
  split; auto. eapply keeps_trans; eauto.
Qed.

Lemma lookup_evolves fuel fs parent name : evolves fs (fst (fuse_lookup fuel fs parent name)).
Proof.
  unfold fuse_lookup. destruct (dirtab_by_inode fs parent) as [r|]; [|apply evolves_refl].
  destruct (eio _) as [e| | |]; try apply evolves_refl. destruct (get_or_assign (m_cache fs) e) as [c i] eqn:E. cbn [fst].
  split; [split; reflexivity|]. intros G. destruct (assign_good _ _ _ _ G E) as (A & B & _). auto.
Qed.

Lemma fill_good d full fuel : forall s idx c l c' x, fill_entries fuel d full s idx c l = (c', x) -> good c ->
  good c' /\ keeps c c' /\ forall l', x = Ok l' -> exists l2, l' = l ++ l2
    /\ Forall (fun y => exists e, node_of (ic_nodes c') (rd_ino y) = Some e /\ rd_name y = name_str e /\ rd_dir y = is_dir e /\ e_offset e < 2048) l2.
Proof.
  induction fuel as [|fuel IH]; intros s idx c l c' x.
  - cbn. intros [= <- <-] G. split; auto. split; [intros ? ? H; exact H|discriminate].
  - cbn [fill_entries]. destruct (next_entry (S fuel) d s) as [[[e|] s']| | |] eqn:E.
    2-5: intros [= <- <-] G; split; auto; split; [intros ? ? H; exact H|]; try discriminate; intros l' [= <-]; exists []; rewrite app_nil_r; split; auto.
    destruct (get_or_assign c e) as [c1 i] eqn:A. destruct (full l _) eqn:F.
    + intros [= <- <-] G. destruct (assign_good _ _ _ _ G A) as (G1 & K1 & _). split; auto. split; auto. intros l' [= <-]. exists []. rewrite app_nil_r. auto.
    + intros H G. destruct (assign_good _ _ _ _ G A) as (G1 & K1 & N1). destruct (IH _ _ _ _ _ _ H G1) as (G2 & K2 & R).
      split; auto. split; [eapply keeps_trans; eauto|]. intros l' Hl. destruct (R l' Hl) as (l2 & -> & HF). eexists. rewrite <- app_assoc. split; [reflexivity|].
      constructor; auto. exists e. cbn [rd_ino rd_name rd_dir]. ssplit; auto.
      clear -E. unfold next_entry in E. destruct (s_end s <=? s_sector s); [discriminate|]. revert s E. generalize (S fuel). intros k.
      induction k as [|k IH]; intros s E; [discriminate|]. cbn [next_loop] in E. unfold rassert in E at 1. destruct (N.ltb_spec (s_offset s + 14) SECTOR_SIZE) as [HS|]; [|discriminate]. cbn [bind] in E.
      destruct (deserialize_dirent_node _ _) as [e0|] eqn:D.
      * destruct (rassert _) as [| | |]; try discriminate. cbn [bind] in E. destruct (if _ <=? _ then _ else _) as [s2| | |]; try discriminate. cbn [bind] in E.
        injection E as <- <-. unfold deserialize_dirent_node in D. destruct (_ || _)%bool; [discriminate|]. injection D as <-. cbn. unfold SECTOR_SIZE in HS. lia.
      * destruct (s_sector s + 1 <? s_end s); [|discriminate]. destruct (next_sector d s) as [s2| | |]; try discriminate. cbn [bind] in E. eauto.
Qed.

Lemma readdir_evolves fuel fs ino offset full : evolves fs (fst (fuse_readdir fuel fs ino offset full)).
Proof.
  unfold fuse_readdir. destruct (dirtab_by_inode fs ino) as [r|]; [|apply evolves_refl].
  destruct (eio (scan_dirent_tree _ _)) as [s| | |]; try apply evolves_refl.
  destruct (_ && _)%bool; [apply evolves_refl|]. destruct (_ && _)%bool; [apply evolves_refl|].
  destruct (eio (skip_entries _ _ _ _ _)) as [[s' idx]| | |]; try apply evolves_refl.
  destruct (fill_entries _ _ _ _ _ _ _) as [c x] eqn:E. cbn [fst]. split; [split; reflexivity|]. intros G.
  destruct (fill_good _ _ _ _ _ _ _ _ _ E G) as (A & B & _). auto.
Qed.

Lemma requests_evolve fs fs' : requests fs fs' -> evolves fs fs'.
Proof.
  induction 1 as [fs|fuel fs p n fs' _ IH|fuel fs i o full fs' _ IH]; [apply evolves_refl| |]; (eapply evolves_trans; [|exact IH]).
  - apply lookup_evolves.
  - apply readdir_evolves.
Qed.
Lemma requests_trans a b c : requests a b -> requests b c -> requests a c.
Proof. induction 1; intros; auto; [eapply rq_lookup|eapply rq_readdir]; eauto. Qed.
Lemma lookup_requests fuel fs p n fs' a : fuse_lookup fuel fs p n = (fs', a) -> requests fs fs'.
Proof. intros E. apply (rq_lookup fuel fs p n). rewrite E. apply rq_none. Qed.
Lemma readdir_requests fuel fs i o full fs' a : fuse_readdir fuel fs i o full = (fs', a) -> requests fs fs'.
Proof. intros E. apply (rq_readdir fuel fs i o full). rewrite E. apply rq_none. Qed.

Lemma mounted_good file fs : mounted file fs -> good (m_cache fs)
  /\ exists d v, open_image file = Ok d /\ read_volume d = Ok v /\ m_dev fs = d /\ m_root fs = v_root v.
Proof.
  intros (fs0 & Hm & Hr). unfold mount_new in Hm. destruct (open_image file) as [d| | |]; try discriminate. cbn [bind] in Hm.
  destruct (read_volume d) as [v| | |] eqn:Ev; try discriminate. injection Hm as <-. apply requests_evolve in Hr as ((A & B) & C).
  split; [apply C, good_new|]. exists d, v. auto.
Qed.
Lemma mounted_more file fs fs' : mounted file fs -> requests fs fs' -> mounted file fs'.
Proof. intros (fs0 & A & B) H. exists fs0. split; auto. eapply requests_trans; eauto. Qed.

(** What an inode number stands for does not change. *)
Lemma dirent_keeps fs fs' i e : good (m_cache fs) -> requests fs fs' -> dirent_by_inode fs i = FValue e -> dirent_by_inode fs' i = FValue e.
Proof.
  intros G H. apply requests_evolve in H as (_ & K). destruct (K G) as (_ & K'). unfold dirent_by_inode. destruct (i =? 1); [discriminate|].
  destruct (node_of (ic_nodes (m_cache fs)) i) as [e'|] eqn:E; [|discriminate]. intros [= ->]. rewrite (K' _ _ E). reflexivity.
Qed.
Lemma dirent_inj fs i j e : good (m_cache fs) -> dirent_by_inode fs i = FValue e -> dirent_by_inode fs j = FValue e -> i = j.
Proof.
  intros G. unfold dirent_by_inode. destruct (i =? 1), (j =? 1); try discriminate.
  destruct (node_of _ i) as [a|] eqn:A; [|discriminate]. destruct (node_of _ j) as [b|] eqn:B; [|discriminate]. intros [= ->] [= ->].
  apply (g_node _ G) in A, B. congruence.
Qed.
Lemma dirent_node fs i e : good (m_cache fs) -> node_of (ic_nodes (m_cache fs)) i = Some e <-> dirent_by_inode fs i = FValue e.
Proof.
  intros G. unfold dirent_by_inode. split; intros H.
  - pose proof (g_next _ G _ _ H). destruct (N.eqb_spec i 1); [lia|]. rewrite H. reflexivity.
  - destruct (i =? 1); [discriminate|]. destruct (node_of _ i); [|discriminate]. congruence.
Qed.

Definition attr_of (i : N) (e : dentry) : attr := new_attr i (r_size (region_of e)) (is_dir e).

Lemma lookup_case_ok fuel fs p n fs' a : good (m_cache fs) -> fuse_lookup fuel fs p n = (fs', Ok a) ->
  exists r e, dirtab_by_inode fs p = Some r /\ walk_path fuel (m_dev fs) r n = Ok e
    /\ a = attr_of (a_ino a) e /\ dirent_by_inode fs' (a_ino a) = FValue e /\ good (m_cache fs').
Proof.
  intros G. unfold fuse_lookup. destruct (dirtab_by_inode fs p) as [r|]; [|discriminate].
  destruct (walk_path fuel (m_dev fs) r n) as [e| | |] eqn:W; cbn [eio]; try discriminate.
  destruct (get_or_assign (m_cache fs) e) as [c i] eqn:E. intros [= <- <-]. destruct (assign_good _ _ _ _ G E) as (A & B & C).
  exists r, e. ssplit; auto. apply dirent_node; auto.
Qed.
Lemma getattr_value fs i e : dirent_by_inode fs i = FValue e -> fuse_getattr fs i = Ok (attr_of i e).
Proof. unfold fuse_getattr. intros ->. reflexivity. Qed.

Lemma dirtab_same fs fs' p r : good (m_cache fs) -> requests fs fs' -> dirtab_by_inode fs p = Some r -> dirtab_by_inode fs' p = Some r.
Proof.
  intros G H. apply requests_evolve in H as ((_ & R) & K). destruct (K G) as (_ & K'). unfold dirtab_by_inode. rewrite R. destruct (p =? 1); auto.
  destruct (node_of (ic_nodes (m_cache fs)) p) as [e|] eqn:E; [|discriminate]. rewrite (K' _ _ E). auto.
Qed.

(** *** Fuel *)
Section Fuel.
Variable d : dev.
Lemma find_loop_fuel r n fuel : forall fuel' o e, (fuel <= fuel')%nat -> find_loop fuel d r n o = Ok e -> find_loop fuel' d r n o = Ok e.
Proof.
  induction fuel as [|fuel IH]; intros fuel' o e Hf; [discriminate|]. destruct fuel' as [|fuel']; [lia|]. cbn [find_loop].
  destruct (read_dirent d o) as [[x|]| | |]; cbn [bind ok_or]; try discriminate.
  assert (K : forall p, (if p =? 0 then Err DoesNotExist else let* offset := region_offset r (4 * p) in find_loop fuel d r n offset) = Ok e ->
    (if p =? 0 then Err DoesNotExist else let* offset := region_offset r (4 * p) in find_loop fuel' d r n offset) = Ok e).
  { intros p. destruct (p =? 0); auto. destruct (region_offset r (4 * p)); cbn [bind]; auto. apply IH. lia. }
  destruct (cmp_ignore_case_utf8 n (name_str x)); auto.
Qed.
Lemma walk_segments_fuel fuel fuel' segs : (fuel <= fuel')%nat -> forall r e, walk_segments fuel d r segs = Ok e -> walk_segments fuel' d r segs = Ok e.
Proof.
  intros Hf. induction segs as [|s segs IH]; intros r e; [discriminate|]. cbn [walk_segments].
  destruct (find_dirent fuel d r s) as [x| | |] eqn:E; try discriminate. cbn [bind].
  assert (E' : find_dirent fuel' d r s = Ok x).
  { revert E. unfold find_dirent. destruct (region_is_empty r); [discriminate|]. destruct (region_offset r 0); cbn [bind]; try discriminate. apply find_loop_fuel; auto. }
  rewrite E'. cbn [bind]. destruct segs as [|s2 segs]; auto. destruct (ok_or _ _); cbn [bind]; try discriminate. apply IH.
Qed.
Lemma walk_path_fuel fuel fuel' r p e : (fuel <= fuel')%nat -> walk_path fuel d r p = Ok e -> walk_path fuel' d r p = Ok e.
Proof. unfold walk_path. intros Hf. destruct p; auto. destruct (str_eqb _ _); auto. apply walk_segments_fuel; auto. Qed.
Lemma walk_path_det fuel fuel' r p e e' : walk_path fuel d r p = Ok e -> walk_path fuel' d r p = Ok e' -> e = e'.
Proof.
  intros A B. apply (walk_path_fuel fuel (Nat.max fuel fuel')) in A; [|lia]. apply (walk_path_fuel fuel' (Nat.max fuel fuel')) in B; [|lia]. congruence.
Qed.
Lemma next_loop_fuel fuel : forall fuel' s x, (fuel <= fuel')%nat -> next_loop fuel d s = Ok x -> next_loop fuel' d s = Ok x.
Proof.
  induction fuel as [|fuel IH]; intros fuel' s x Hf; [discriminate|]. destruct fuel' as [|fuel']; [lia|]. cbn [next_loop].
  destruct (rassert _); cbn [bind]; try discriminate. destruct (deserialize_dirent_node _ _); auto.
  destruct (s_sector s + 1 <? s_end s); auto. destruct (next_sector d s); cbn [bind]; try discriminate. apply IH. lia.
Qed.
Lemma next_entry_fuel fuel fuel' s x : (fuel <= fuel')%nat -> next_entry fuel d s = Ok x -> next_entry fuel' d s = Ok x.
Proof. unfold next_entry. intros Hf. destruct (s_end s <=? s_sector s); auto. apply next_loop_fuel; auto. Qed.
Lemma next_entry_det fuel fuel' s x y : next_entry fuel d s = Ok x -> next_entry fuel' d s = Ok y -> x = y.
Proof.
  intros A B. apply (next_entry_fuel fuel (Nat.max fuel fuel')) in A; [|lia]. apply (next_entry_fuel fuel' (Nat.max fuel fuel')) in B; [|lia]. congruence.
Qed.
End Fuel.

(** ** C52 *)
Lemma c52_same file fs p n fuel fs1 a fs2 fuel' fs3 a' : mounted file fs ->
  fuse_lookup fuel fs p n = (fs1, Ok a) -> requests fs1 fs2 -> fuse_lookup fuel' fs2 p n = (fs3, Ok a') -> a' = a.
Proof.
  intros HM E1 HR E2. destruct (mounted_good _ _ HM) as (G & d & v & _ & _ & Ed & Er).
  destruct (lookup_case_ok _ _ _ _ _ _ G E1) as (r & e & T1 & W1 & A1 & D1 & G1).
  assert (R1 : requests fs fs2) by (eapply requests_trans; [eapply lookup_requests; eauto|auto]).
  destruct (requests_evolve _ _ HR) as (_ & K). destruct (K G1) as (G2 & _).
  destruct (lookup_case_ok _ _ _ _ _ _ G2 E2) as (r' & e' & T2 & W2 & A2 & D2 & G3).
  rewrite (dirtab_same _ _ _ _ G R1 T1) in T2. injection T2 as <-. destruct (requests_evolve _ _ R1) as ((Ed' & _) & _). rewrite Ed' in W2.
  pose proof (walk_path_det _ _ _ _ _ _ _ W1 W2) as <-.
  assert (D3 : dirent_by_inode fs3 (a_ino a) = FValue e).
  { eapply dirent_keeps; [exact G1| |exact D1]. eapply requests_trans; [exact HR|eapply lookup_requests; eauto]. }
  rewrite A1, A2, (dirent_inj _ _ _ _ G3 D2 D3). reflexivity.
Qed.

Lemma c52_distinct file fs p n fuel fs1 a fs2 p' n' fuel' fs3 a' : mounted file fs ->
  fuse_lookup fuel fs p n = (fs1, Ok a) -> requests fs1 fs2 -> fuse_lookup fuel' fs2 p' n' = (fs3, Ok a') ->
  exists r r' e e', dirtab_by_inode fs p = Some r /\ walk_path fuel (m_dev fs) r n = Ok e
   /\ dirtab_by_inode fs2 p' = Some r' /\ walk_path fuel' (m_dev fs) r' n' = Ok e'
   /\ a_ino a <> 1 /\ (a_ino a = a_ino a' <-> e = e').
Proof.
  intros HM E1 HR E2. destruct (mounted_good _ _ HM) as (G & d & v & _ & _ & Ed & Er).
  destruct (lookup_case_ok _ _ _ _ _ _ G E1) as (r & e & T1 & W1 & A1 & D1 & G1).
  assert (R1 : requests fs fs2) by (eapply requests_trans; [eapply lookup_requests; eauto|auto]).
  destruct (requests_evolve _ _ HR) as (_ & K). destruct (K G1) as (G2 & _).
  destruct (lookup_case_ok _ _ _ _ _ _ G2 E2) as (r' & e' & T2 & W2 & A2 & D2 & G3).
  destruct (requests_evolve _ _ R1) as ((Ed' & _) & _). rewrite Ed' in W2.
  assert (D3 : dirent_by_inode fs3 (a_ino a) = FValue e).
  { eapply dirent_keeps; [exact G1| |exact D1]. eapply requests_trans; [exact HR|eapply lookup_requests; eauto]. }
  exists r, r', e, e'. ssplit; auto.
  - intros Q. unfold dirent_by_inode in D1. rewrite Q in D1. discriminate.
  - split.
    + intros Q. rewrite <- Q in D2. congruence.
    + intros <-. eapply dirent_inj; eauto.
Qed.

Lemma c52_listed file fs ino offset full fuel fs1 l x : mounted file fs ->
  fuse_readdir fuel fs ino offset full = (fs1, Ok l) -> In x l ->
  rd_ino x = ino /\ (rd_name x = [46] \/ rd_name x = [46; 46])
  \/ exists e, dirent_by_inode fs1 (rd_ino x) = FValue e /\ rd_name x = name_str e /\ rd_dir x = is_dir e /\ e_offset e < 2048.
Proof.
  intros HM. destruct (mounted_good _ _ HM) as (G & _). unfold fuse_readdir. destruct (dirtab_by_inode fs ino) as [r|]; [|discriminate].
  destruct (eio (scan_dirent_tree _ _)) as [s| | |]; try discriminate.
  destruct ((offset =? 0) && _)%bool; [discriminate|]. destruct ((offset <=? 1) && _)%bool; [discriminate|].
  destruct (eio (skip_entries _ _ _ _ _)) as [[s' idx]| | |]; try discriminate.
  destruct (fill_entries _ _ _ _ _ _ _) as [c y] eqn:E. destruct (fill_good _ _ _ _ _ _ _ _ _ E G) as (A & B & C).
  intros [= <- Hy] Hx. destruct y as [l'| | |]; try discriminate. injection Hy as ->. destruct (C _ eq_refl) as (l2 & -> & HF).
  apply in_app_or in Hx as [Hx|Hx].
  - left. destruct (offset =? 0), (offset <=? 1); cbn in Hx; repeat match goal with H : _ \/ _ |- _ => destruct H as [<-|H] end; try contradiction; cbn; auto.
  - right. rewrite Forall_forall in HF. destruct (HF _ Hx) as (e & E1 & E2 & E3 & E4). exists e. ssplit; auto. apply dirent_node; auto.
Qed.

(** ** C54 *)
Lemma component_path n : component n -> path_of [n] n.
Proof.
  intros (H1 & H2). exists O, []. cbn [repeat join app]. rewrite app_nil_r. ssplit; auto; try discriminate.
Qed.
Lemma walk_one d r n fuel : component n -> walk_path fuel d r n = find_dirent fuel d r n.
Proof.
  intros H. rewrite (walk_path_segs _ _ _ _ _ (component_path n H)). cbn [walk_segments]. destruct (find_dirent fuel d r n); reflexivity.
Qed.

Lemma c54_lemma file fs ino offset full fuel fs1 l x fs2 p n fuel' fs3 a r : mounted file fs ->
  fuse_readdir fuel fs ino offset full = (fs1, Ok l) -> In x l -> rd_name x <> [46] -> rd_name x <> [46; 46] -> requests fs1 fs2 ->
  dirtab_by_inode fs2 p = Some r -> 0 < r_sector r -> component n -> fuse_lookup fuel' fs2 p n = (fs3, Ok a) ->
  a_ino a <> rd_ino x.
Proof.
  intros HM E1 Hx N1 N2 HR HT H0 HC E2.
  pose proof (mounted_more _ _ _ HM (readdir_requests _ _ _ _ _ _ _ E1)) as HM1.
  destruct (mounted_good _ _ HM1) as (G1 & d & v & Ho & _ & Ed & _). destruct (requests_evolve _ _ HR) as ((Ed2 & _) & K). destruct (K G1) as (G2 & _).
  destruct (c52_listed _ _ _ _ _ _ _ _ _ HM E1 Hx) as [(_ & [Q|Q])|(e & D1 & _ & _ & O1)]; try congruence.
  destruct (lookup_case_ok _ _ _ _ _ _ G2 E2) as (r' & e' & T2 & W2 & A2 & D2 & G3). rewrite HT in T2. injection T2 as <-.
  rewrite walk_one in W2 by auto. rewrite Ed2, Ed in W2. apply find_dirent_sound in W2 as ((_ & O2) & _); [|eapply image_lawful; eauto].
  intros Q. assert (D3 : dirent_by_inode fs3 (rd_ino x) = FValue e).
  { eapply dirent_keeps; [exact G1| |exact D1]. eapply requests_trans; [exact HR|eapply lookup_requests; eauto]. }
  rewrite Q in D2. rewrite D3 in D2. injection D2 as <-. lia.
Qed.

(** ** C53 *)
Inductive yields (d : dev) : scan -> list dentry -> Prop :=
| y_nil fuel s s' : next_entry fuel d s = Ok (None, s') -> yields d s []
| y_cons fuel s e s' es : next_entry fuel d s = Ok (Some e, s') -> yields d s' es -> yields d s (e :: es).

Lemma collect_yields d fuel : forall s es, collect_scan fuel d s = Ok es -> yields d s es.
Proof.
  induction fuel as [|fuel IH]; intros s es; [discriminate|]. cbn [collect_scan].
  destruct (next_entry (S fuel) d s) as [[[e|] s']| | |] eqn:E; cbn [bind]; try discriminate.
  - destruct (collect_scan fuel d s') as [es'| | |] eqn:E'; cbn [bind]; try discriminate. intros [= <-]. econstructor; eauto.
  - intros [= <-]. econstructor; eauto.
Qed.

(** The end of a scan is final. *)
Lemma next_end d fuel s s' : next_entry fuel d s = Ok (None, s') -> next_entry 1 d s' = Ok (None, s').
Proof.
  unfold next_entry at 1. destruct (s_end s <=? s_sector s) eqn:Q.
  - intros [= <-]. unfold next_entry. rewrite Q. reflexivity.
  - revert s Q. induction fuel as [|fuel IH]; intros s Q; [discriminate|]. cbn [next_loop].
    destruct (rassert (s_offset s + 14 <? SECTOR_SIZE)) as [u| | |] eqn:A; cbn [bind]; try discriminate.
    destruct (deserialize_dirent_node _ _) as [e|] eqn:D.
    + intros H. apply bind_ok in H as (? & _ & H). apply bind_ok in H as (? & _ & H). discriminate.
    + destruct (s_sector s + 1 <? s_end s) eqn:L.
      * destruct (next_sector d s) as [s2| | |] eqn:N1; cbn [bind]; try discriminate. apply IH.
        unfold next_sector in N1. destruct (N.leb_spec (s_end s) (s_sector s + 1)); [apply N.ltb_lt in L; lia|].
        destruct (io _); cbn [bind] in N1; try discriminate. injection N1 as <-. cbn. apply N.leb_gt. auto.
      * intros [= <-]. unfold next_entry. rewrite Q. cbn [next_loop]. rewrite A. cbn [bind]. rewrite D, L. reflexivity.
Qed.

(** Skipping always stops at a scan of the remaining entries. *)
Lemma skip_sound d fuel : forall s es idx offset s' idx', yields d s es -> skip_entries fuel d s idx offset = Ok (s', idx') ->
  idx' = idx + N.min (offset - idx) (len es) /\ yields d s' (skipn (N.to_nat (offset - idx)) es).
Proof.
  induction fuel as [|fuel IH]; intros s es idx offset s' idx' Y; [discriminate|]. cbn [skip_entries].
  destruct (N.leb_spec offset idx) as [H|H].
  - intros [= <- <-]. replace (offset - idx) with 0 by lia. cbn [N.to_nat skipn]. split; [lia|exact Y].
  - destruct (next_entry (S fuel) d s) as [[[e|] s2]| | |] eqn:E; cbn [bind]; try discriminate; inversion Y as [f ? ? X|f ? e0 ? es0 X Y']; subst;
      pose proof (next_entry_det _ _ _ _ _ _ E X) as Q; try discriminate Q; injection Q as ?; subst.
    + intros HS. destruct (IH _ _ _ _ _ _ Y' HS) as (A & B). rewrite len_cons. split; [lia|].
      replace (N.to_nat (offset - idx)) with (S (N.to_nat (offset - (idx + 1)))) by lia. exact B.
    + intros [= <- <-]. split; [change (len (@nil dentry)) with 0; lia|]. rewrite skipn_nil. eapply y_nil, next_end; eauto.
Qed.

Fixpoint entries_from (idx : N) (es : list dentry) : list (N * (bool * str)) :=
  match es with [] => [] | e :: es => (idx + 1, entry_shown e) :: entries_from (idx + 1) es end.
Definition row (x : rdent) : N * (bool * str) := (rd_off x, shown x).

(** Filling gives a prefix of the remaining entries; the rest did not fit. *)
Lemma fill_sound d full fuel : forall s es idx c l c' l', yields d s es -> fill_entries fuel d full s idx c l = (c', Ok l') ->
  exists l2 rest, l' = l ++ l2 /\ entries_from idx es = map row l2 ++ rest /\ (rest = [] \/ exists x, full l' x = true).
Proof.
  induction fuel as [|fuel IH]; intros s es idx c l c' l' Y; [discriminate|]. cbn [fill_entries].
  destruct (next_entry (S fuel) d s) as [[[e|] s2]| | |] eqn:E; try discriminate; inversion Y as [f ? ? X|f ? e0 ? es0 X Y']; subst;
    pose proof (next_entry_det _ _ _ _ _ _ E X) as Q; try discriminate Q; injection Q as ?; subst.
  - destruct (get_or_assign c e0) as [c1 i]. destruct (full l _) eqn:F.
    + intros [= <- <-]. exists [], (entries_from idx (e0 :: es0)). rewrite app_nil_r. split; auto. split; auto. right. eauto.
    + intros H. destruct (IH _ _ _ _ _ _ _ Y' H) as (l2 & rest & -> & A & B). rewrite <- app_assoc in *. eexists (_ :: l2), rest. split; [reflexivity|]. split; [|exact B].
      cbn [entries_from map app]. rewrite A. reflexivity.
  - intros [= <- <-]. exists [], []. rewrite app_nil_r. auto.
Qed.

Definition rows_of (es : list dentry) : list (N * (bool * str)) := (1, (true, [46])) :: (2, (true, [46; 46])) :: entries_from 2 es.

Lemma skip_rows es k : skipn k (entries_from 2 es) = entries_from (2 + N.min (N.of_nat k) (len es)) (skipn k es).
Proof.
  generalize 2 as i. revert k. induction es as [|e es IH]; intros k i; [destruct k; reflexivity|].
  destruct k as [|k]; [cbn [N.of_nat]; rewrite N.min_0_l, N.add_0_r; reflexivity|].
  cbn [skipn entries_from]. rewrite IH, len_cons. f_equal. lia.
Qed.

Lemma readdir_page fuel fs ino r es s offset full fs' l : dirtab_by_inode fs ino = Some r -> scan_dirent_tree (m_dev fs) r = Ok s -> yields (m_dev fs) s es ->
  fuse_readdir fuel fs ino offset full = (fs', Ok l) ->
  exists rest, skipn (N.to_nat offset) (rows_of es) = map row l ++ rest /\ (rest = [] \/ exists x, full l x = true).
Proof.
  intros HT HS Y. unfold fuse_readdir. rewrite HT, HS. cbn [eio].
  destruct ((offset =? 0) && _)%bool; [discriminate|]. destruct ((offset <=? 1) && _)%bool; [discriminate|].
  destruct (skip_entries fuel (m_dev fs) s 2 offset) as [[s' idx]| | |] eqn:K; cbn [eio]; try discriminate.
  destruct (fill_entries _ _ _ _ _ _ _) as [c y] eqn:F. intros [= <- Hy]. destruct y as [l0| | |]; try discriminate. injection Hy as ->.
  destruct (skip_sound _ _ _ _ _ _ _ _ Y K) as (-> & Y'). destruct (fill_sound _ _ _ _ _ _ _ _ _ _ Y' F) as (l2 & rest & -> & A & B).
  exists rest. split; auto. rewrite map_app, <- app_assoc, <- A. unfold rows_of.
  destruct (N.eqb_spec offset 0) as [->|H0]; [cbn [N.leb N.to_nat skipn N.compare map app]; replace (0 - 2) with 0 by lia; rewrite N.min_0_l; reflexivity|].
  destruct (N.leb_spec offset 1) as [H1|H1].
  - replace offset with 1 by lia. cbn [Pos.to_nat N.to_nat skipn Pos.iter_op map app]. change (1 - 2) with 0. rewrite N.min_0_l. reflexivity.
  - replace (N.to_nat offset) with (S (S (N.to_nat (offset - 2)))) by lia. cbn [skipn map app]. rewrite skip_rows, N2Nat.id. reflexivity.
Qed.

(** Positions are consecutive. *)
Lemma rows_pos es : map fst (rows_of es) = map (fun k => N.of_nat k + 1) (seq 0 (2 + length es)).
Proof.
  unfold rows_of. cbn [map fst]. rewrite seq_app. cbn [seq map app Nat.add]. do 2 f_equal.
  assert (E : forall es k, map fst (entries_from (N.of_nat k) es) = map (fun k => N.of_nat k + 1) (seq k (length es))).
  { clear es. induction es as [|e es IH]; intros k; auto. cbn [entries_from map fst length seq]. f_equal. rewrite <- IH. do 2 f_equal. lia. }
  apply (E es 2%nat).
Qed.
Lemma rows_last es k l x rest : skipn k (rows_of es) = map row (l ++ [x]) ++ rest -> rest = skipn (N.to_nat (rd_off x)) (rows_of es).
Proof.
  intros H.
  assert (E : rows_of es = firstn k (rows_of es) ++ map row (l ++ [x]) ++ rest) by (rewrite <- H; symmetry; apply firstn_skipn).
  assert (Hk : (k <= length (rows_of es))%nat).
  { destruct (Nat.le_gt_cases k (length (rows_of es))) as [|Q]; auto. rewrite skipn_all2 in H by lia. rewrite map_app in H. destruct (map row l); discriminate. }
  assert (P : rd_off x = N.of_nat (k + length l) + 1).
  { assert (N1 : nth_error (map fst (rows_of es)) (k + length l) = Some (rd_off x)).
    { rewrite E, map_app, nth_error_app2; rewrite map_length, firstn_length_le by lia; [|lia]. replace (k + length l - k)%nat with (length l) by lia.
      rewrite map_app, nth_error_app1 by (rewrite !map_length, app_length; cbn; lia). rewrite !map_app, nth_error_app2; rewrite !map_length; [|lia].
      rewrite Nat.sub_diag. reflexivity. }
    rewrite rows_pos in N1. rewrite nth_error_map in N1. destruct (nth_error (seq 0 _) _) as [y|] eqn:Q; [|discriminate]. cbn in N1. injection N1 as <-.
    assert (Hl : (k + length l < length (seq 0 (2 + length es)))%nat) by (apply nth_error_Some; congruence).
    rewrite seq_length in Hl. rewrite (nth_error_nth' _ 0%nat) in Q by (rewrite seq_length; exact Hl). rewrite seq_nth in Q by exact Hl. injection Q as <-. reflexivity. }
  rewrite P. replace (N.to_nat _) with (length (firstn k (rows_of es) ++ map row (l ++ [x]))).
  - rewrite E at 2. rewrite app_assoc, skipn_app, skipn_all, Nat.sub_diag. reflexivity.
  - rewrite app_length, firstn_length_le, map_length, app_length by lia. cbn. lia.
Qed.

Lemma reads_rows ino r es s : forall fs offset l fs', reads_dir ino fs offset l fs' ->
  good (m_cache fs) -> dirtab_by_inode fs ino = Some r -> scan_dirent_tree (m_dev fs) r = Ok s -> yields (m_dev fs) s es ->
  map row l = skipn (N.to_nat offset) (rows_of es).
Proof.
  induction 1 as [fuel fs offset full fs' HR E|fuel fs offset full l x fs1 fs2 l' fs' HR E HQ HL IH]; intros G HT HS Y.
  - destruct (readdir_page _ _ _ _ _ _ _ _ _ _ HT HS Y E) as (rest & A & [->|(y & B)]); [symmetry; exact A|].
    rewrite HR in B; [discriminate|vm_compute; discriminate].
  - destruct (readdir_page _ _ _ _ _ _ _ _ _ _ HT HS Y E) as (rest & A & _).
    assert (HQ' : requests fs fs2) by (eapply requests_trans; [eapply readdir_requests; eauto|auto]).
    destruct (requests_evolve _ _ HQ') as ((Ed & Er) & K). destruct (K G) as (G2 & _).
    rewrite map_app, A. f_equal. rewrite (rows_last _ _ _ _ _ A). apply IH; [exact G2|exact (dirtab_same _ _ _ _ G HQ' HT)|rewrite Ed; exact HS|rewrite Ed; exact Y].
Qed.

Lemma rows_shown es : map snd (rows_of es) = dots ++ map entry_shown es.
Proof.
  unfold rows_of, dots. cbn [map snd app]. do 2 f_equal. generalize 2 as i. induction es as [|e es IH]; intros i; auto. cbn. rewrite IH. reflexivity.
Qed.

Lemma c53_lemma file fs ino r es fuel l fs' : mounted file fs -> dirtab_by_inode fs ino = Some r ->
  scan_all fuel (m_dev fs) r = Ok es -> reads_dir ino fs 0 l fs' -> map shown l = dots ++ map entry_shown es.
Proof.
  intros HM HT HS HL. destruct (mounted_good _ _ HM) as (G & _). unfold scan_all in HS. destruct (scan_dirent_tree (m_dev fs) r) as [s| | |] eqn:Q; try discriminate. cbn [bind] in HS.
  pose proof (reads_rows _ _ _ _ _ _ _ _ HL G HT Q (collect_yields _ _ _ _ HS)) as E. change (skipn (N.to_nat 0) (rows_of es)) with (rows_of es) in E.
  rewrite <- rows_shown, <- E, map_map. reflexivity.
Qed.

(** With enough fuel, a request with room for two records is answered. *)
Definition fills (d : dev) (s : scan) (n : nat) : Prop :=
  forall fuel full idx c l, (n <= fuel)%nat -> exists c' l', fill_entries fuel d full s idx c l = (c', Ok l').
Lemma fill_total d s es : yields d s es -> exists n, fills d s n.
Proof.
  induction 1 as [f s s' X|f s e s' es X Y (n & IH)].
  - exists (S f). intros [|fuel] full idx c l Hf; [lia|]. cbn [fill_entries]. rewrite (next_entry_fuel _ f (S fuel) _ _ ltac:(lia) X). eauto.
  - exists (S (Nat.max f n)). intros [|fuel] full idx c l Hf; [lia|]. cbn [fill_entries]. rewrite (next_entry_fuel _ f (S fuel) _ _ ltac:(lia) X).
    destruct (get_or_assign c e) as [c1 i]. destruct (full l _); eauto. apply IH. lia.
Qed.
Lemma skip_total d s es : yields d s es -> exists n, forall fuel idx offset, (n <= fuel)%nat -> exists s' i, skip_entries fuel d s idx offset = Ok (s', i) /\ fills d s' n.
Proof.
  intros Y. destruct (fill_total _ _ _ Y) as (n0 & F). revert n0 F. induction Y as [f s s' X|f s e s' es X Y IH]; intros n0 F.
  - destruct (fill_total d s' [] (y_nil _ _ _ _ (next_end _ _ _ _ X))) as (n1 & F1).
    exists (S (Nat.max f (Nat.max n0 n1))). intros [|fuel] idx offset Hf; [lia|]. cbn [skip_entries]. destruct (offset <=? idx).
    + do 2 eexists. split; [reflexivity|]. intros k full i c l Hk. apply F. lia.
    + rewrite (next_entry_fuel _ f (S fuel) _ _ ltac:(lia) X). cbn [bind]. do 2 eexists. split; [reflexivity|]. intros k full i c l Hk. apply F1. lia.
  - destruct (fill_total _ _ _ Y) as (n1 & F1). destruct (IH n1 F1) as (n2 & F2).
    exists (S (Nat.max f (Nat.max n0 n2))). intros [|fuel] idx offset Hf; [lia|]. cbn [skip_entries]. destruct (offset <=? idx).
    + do 2 eexists. split; [reflexivity|]. intros k full i c l Hk. apply F. lia.
    + rewrite (next_entry_fuel _ f (S fuel) _ _ ltac:(lia) X). cbn [bind]. destruct (F2 fuel (idx + 1) offset ltac:(lia)) as (s2 & i2 & E & F3).
      exists s2, i2. split; auto. intros k full i c l Hk. apply F3. lia.
Qed.

Lemma c53_total file fs ino r es fuel offset full : mounted file fs -> dirtab_by_inode fs ino = Some r ->
  scan_all fuel (m_dev fs) r = Ok es -> roomy full ->
  exists n, forall fuel, (n <= fuel)%nat -> exists fs' l, fuse_readdir fuel fs ino offset full = (fs', Ok l).
Proof.
  intros HM HT HS HR. unfold scan_all in HS. destruct (scan_dirent_tree (m_dev fs) r) as [s| | |] eqn:Q; try discriminate. cbn [bind] in HS.
  destruct (skip_total _ _ _ (collect_yields _ _ _ _ HS)) as (n & H). exists n. intros k Hk. unfold fuse_readdir. rewrite HT, Q. cbn [eio].
  rewrite (HR [] _) by (vm_compute; discriminate). rewrite Bool.andb_false_r.
  assert (HL : len (if offset =? 0 then [mkRdent ino 1 true [46]] else []) <= 1) by (destruct (offset =? 0); vm_compute; discriminate).
  rewrite (HR _ _ HL), Bool.andb_false_r. destruct (H k 2 offset Hk) as (s' & i & E & F). rewrite E. cbn [eio].
  match goal with |- context [fill_entries _ _ _ _ _ _ ?l] => destruct (F k full i (m_cache fs) l Hk) as (c & l' & E') end. rewrite E'. cbn [eio]. eauto.
Qed.

(** ** C74: the mounted tree *)
Lemma names_snoc t segs s n t' : names t (segs ++ [s]) n t' -> exists cs, selected t segs (FDir cs) /\ names (FDir cs) [s] n t'.
Proof.
  revert t. induction segs as [|a segs IH]; intros t H; cbn [app] in H.
  - inversion H; subst; exists cs; (split; [left; auto|exact H]).
  - inversion H as [|? ? n0 cs' ? ? ? Hin Hs Hn]; subst; [destruct segs; discriminate|]. destruct (IH _ Hn) as (cs2 & S2 & N2). exists cs2. split; auto. right.
    destruct S2 as [(-> & [= ->])|(n2 & K)]; [exists n0; apply nm_last; auto|exists n2; eapply nm_step; eauto].
Qed.

Lemma contains_file_inv d b r : contains d (FFile b) r -> r_size r = len b /\ (b <> [] -> d (2048 * r_sector r) (len b) = Ok b).
Proof. intros H. inversion H; subst. auto. Qed.

Section Shown.
Variables (file : list byte) (d : dev) (r : region) (t : ftree).
Hypothesis HO : opens_as file d r t.

Definition denotes (fs : mount) (segs : list str) (ino : N) (t' : ftree) : Prop :=
  segs = [] /\ ino = 1 /\ t' = t
  \/ exists e, dirent_by_inode fs ino = FValue e /\ lookup d r segs (Ok e) /\ contains d t' (region_of e) /\ is_dir e = is_fdir t'.

Lemma mounted_dev fs : mounted file fs -> good (m_cache fs) /\ m_dev fs = d /\ m_root fs = r.
Proof.
  intros HM. destruct (mounted_good _ _ HM) as (G & d' & v & A & B & C & D). destruct HO as (A' & (v' & B' & ->) & _).
  rewrite A' in A. injection A as <-. rewrite B' in B. injection B as <-. auto.
Qed.
Lemma shown_lawful : lawful d.
Proof. destruct HO as (A & _). eapply image_lawful; eauto. Qed.

Lemma denotes_dir fs segs ino cs : mounted file fs -> denotes fs segs ino (FDir cs) ->
  exists rp, dirtab_by_inode fs ino = Some rp /\ contains d (FDir cs) rp /\ forall q x, lookup d rp q x -> lookup d r (segs ++ q) x.
Proof.
  intros HM HD. destruct (mounted_dev _ HM) as (G & Ed & Er). destruct HD as [(-> & -> & E)|(e & D & L & C & K)].
  - exists r. destruct HO as (_ & _ & _ & HC). split; [unfold dirtab_by_inode; rewrite N.eqb_refl, Er; reflexivity|]. split; [rewrite E; exact HC|auto].
  - exists (region_of e). cbn [is_fdir] in K. ssplit; auto.
    + unfold dirent_by_inode in D. unfold dirtab_by_inode. destruct (ino =? 1); [discriminate|]. destruct (node_of _ ino) as [e'|]; [|discriminate]. injection D as ->.
      rewrite is_dir_table, K. reflexivity.
    + intros q x Hq. eapply lookup_app; eauto.
Qed.

Lemma child_found fs segs ino cs s n t' : mounted file fs -> denotes fs segs ino (FDir cs) -> component s -> names (FDir cs) [s] n t' ->
  exists rp e, dirtab_by_inode fs ino = Some rp /\ lookup d r (segs ++ [s]) (Ok e) /\ contains d t' (region_of e) /\ is_dir e = is_fdir t'
   /\ name_str e = n /\ returns (fun fuel => walk_path fuel d rp s) (Ok e).
Proof.
  intros HM HD HC HN. destruct (denotes_dir _ _ _ _ HM HD) as (rp & T & C & K). destruct (contains_found d _ _ _ _ HN _ C) as (e & L & E1 & E2 & E3).
  exists rp, e. ssplit; auto. apply (c31_lemma d rp [s]); auto; [apply shown_lawful|apply component_path; auto].
Qed.

Lemma denotes_more fs fs' segs ino t' : mounted file fs -> requests fs fs' -> denotes fs segs ino t' -> denotes fs' segs ino t'.
Proof.
  intros HM HR [H|(e & D & H)]; [left; auto|right]. exists e. split; auto. eapply dirent_keeps; eauto. apply (mounted_dev _ HM).
Qed.

Lemma found_denotes fs segs ino fs' : mounted file fs -> found_at fs segs ino fs' -> mounted file fs'
  /\ (Forall component segs -> forall t', selected t segs t' -> denotes fs' segs ino t').
Proof.
  intros HM. induction 1 as [|segs ino fs1 fs2 _ (M1 & IH) HR|segs p fs1 fuel s fs2 a _ (M1 & IH) HL].
  - split; auto. intros _ t' [(_ & ->)|(n & K)]; [left; auto|inversion K].
  - split; [eapply mounted_more; eauto|]. intros HF t' HS. eapply denotes_more; eauto.
  - split; [eapply mounted_more; eauto; eapply lookup_requests; eauto|]. intros HF t' HS. apply Forall_app in HF as (HF & HC). inversion HC; subst.
    destruct HS as [(Q & _)|(n & HN)]; [destruct segs; discriminate|]. destruct (names_snoc _ _ _ _ _ HN) as (cs & S1 & N1).
    destruct (child_found _ _ _ _ _ _ _ M1 (IH HF _ S1) H1 N1) as (rp & e & T & L & C & K & _ & (k & W)).
    destruct (mounted_dev _ M1) as (G1 & Ed & Er). destruct (lookup_case_ok _ _ _ _ _ _ G1 HL) as (rp' & e' & T' & W' & A & D & G2).
    rewrite T in T'. injection T' as <-. rewrite Ed in W'. specialize (W _ (Nat.le_max_r fuel k)).
    pose proof (walk_path_det _ _ _ _ _ _ _ W' W) as ->. right. exists e. auto.
Qed.

(** Ranges of a successful read can be read. *)
Lemma image_range o n b k m : d o n = Ok b -> k + m <= n -> d (o + k) m = Ok (slice b k m).
Proof.
  destruct HO as (A & _). unfold open_image in A. destruct (offset_wrapper_new _) as [base| | |]; cbn [bind] in A; try discriminate. injection A as <-.
  unfold offset_dev, file_dev. destruct (N.eqb_spec n 0) as [->|Hn].
  - intros [= <-] H. replace m with 0 by lia. cbn [N.eqb]. unfold slice. rewrite firstn_O. reflexivity.
  - destruct (N.leb_spec (o + base + n) (len file)); [|discriminate]. intros [= <-] Hk. destruct (N.eqb_spec m 0) as [->|Hm]; [unfold slice; rewrite firstn_O; reflexivity|].
    destruct (N.leb_spec (o + k + base + m) (len file)); [|lia]. rewrite slice_slice by lia. do 2 f_equal. lia.
Qed.

Lemma file_read e b off n : contains d (FFile b) (region_of e) -> off < len b -> off + n <= len b ->
  read_data_offset d (d_dirent (e_node e)) n off = Ok (slice b off n).
Proof.
  intros HC H1 H2. apply contains_file_inv in HC as (S1 & S2). unfold read_data_offset. fold (region_of e). rewrite S1. rewrite N.min_l by lia.
  destruct (N.eqb_spec (len b) 0); [lia|]. rewrite region_offset_ok by lia. cbn [bind].
  assert (b <> []) by (intros ->; change (len (@nil byte)) with 0 in H1; lia). rewrite (image_range _ _ _ off n (S2 H) H2). reflexivity.
Qed.
Lemma file_past e b off n : contains d (FFile b) (region_of e) -> b <> [] -> len b <= off ->
  exists x, read_data_offset d (d_dirent (e_node e)) n off = Err x.
Proof.
  intros HC H1 H2. apply contains_file_inv in HC as (S1 & S2). unfold read_data_offset. fold (region_of e). rewrite S1.
  destruct (N.eqb_spec (len b) 0) as [Q|Q]; [destruct b; [congruence|rewrite len_cons in Q; lia]|].
  unfold region_offset. destruct (N.leb_spec (r_size (region_of e)) off); [cbn; eauto|lia].
Qed.

Lemma root_shown fs ino : mounted file fs -> ino = 1 -> fuse_getattr fs ino = Ok (new_attr 1 (r_size r) true).
Proof. intros HM ->. destruct (mounted_dev _ HM) as (_ & _ & <-). reflexivity. Qed.

Lemma c74_attr fs segs ino fs' t' : mounted file fs -> found_at fs segs ino fs' -> Forall component segs -> selected t segs t' ->
  exists a, fuse_getattr fs' ino = Ok a /\ a_ino a = ino /\ a_dir a = is_fdir t'
   /\ forall b, t' = FFile b -> a_size a = len b /\ a_blocks a = (len b + 2047) / 2048
        /\ forall off n, off < len b -> off + n <= len b -> fuse_read fs' ino off n = Ok (slice b off n).
Proof.
  intros HM HF HC HS. destruct (found_denotes _ _ _ _ HM HF) as (M' & K). specialize (K HC _ HS). destruct (mounted_dev _ M') as (G & Ed & Er).
  destruct K as [(-> & -> & ->)|(e & D & L & C & E)].
  - eexists. split; [eapply root_shown; eauto|]. cbn. destruct HO as (_ & _ & Ht & _). ssplit; auto. intros b ->. discriminate.
  - eexists. split; [eapply getattr_value; eauto|]. cbn [attr_of new_attr a_ino a_dir a_size a_blocks]. ssplit; auto. intros b ->.
    destruct (contains_file_inv _ _ _ C) as (S1 & _). rewrite S1. ssplit; auto. intros off n H1 H2. unfold fuse_read. rewrite D, Ed.
    rewrite (file_read _ _ _ _ C H1 H2). reflexivity.
Qed.

Lemma c74_lookup fs segs ino fs' cs s n t' : mounted file fs -> found_at fs segs ino fs' -> Forall component segs -> selected t segs (FDir cs) ->
  component s -> names (FDir cs) [s] n t' ->
  exists fs2 a, returns (fun fuel => fuse_lookup fuel fs' ino s) (fs2, Ok a)
   /\ a_dir a = is_fdir t' /\ forall b, t' = FFile b -> a_size a = len b.
Proof.
  intros HM HF HC HS Hs HN. destruct (found_denotes _ _ _ _ HM HF) as (M' & K). specialize (K HC _ HS). destruct (mounted_dev _ M') as (G & Ed & Er).
  destruct (child_found _ _ _ _ _ _ _ M' K Hs HN) as (rp & e & T & L & C & E & _ & (k & W)).
  destruct (get_or_assign (m_cache fs') e) as [c i] eqn:Q. exists (with_cache fs' c), (attr_of i e). split; [|split].
  - exists k. intros fuel Hf. unfold fuse_lookup. rewrite T, Ed, (W _ Hf). cbn [eio]. rewrite Q. reflexivity.
  - exact E.
  - intros b ->. apply contains_file_inv in C as (S1 & _). exact S1.
Qed.

(** ** C75 *)
Lemma c75_lemma fs segs ino fs' cs s : mounted file fs -> found_at fs segs ino fs' -> Forall component segs -> selected t segs (FDir cs) ->
  component s -> (forall n t', In (n, t') cs -> ~ same_name s n) ->
  returns (fun fuel => fuse_lookup fuel fs' ino s) (fs', Err EIO).
Proof.
  intros HM HF HC HS Hs HN. destruct (found_denotes _ _ _ _ HM HF) as (M' & K). specialize (K HC _ HS). destruct (mounted_dev _ M') as (G & Ed & Er).
  destruct (denotes_dir _ _ _ _ M' K) as (rp & T & C & _).
  assert (X : exists e, lookup d rp [s] (Err e)).
  { apply contains_dir_inv in C as [(_ & Hz)|(TT & es & HD & HP & HA)]; [eexists; apply lk_empty; auto|]. eexists. eapply lk_absent; eauto.
    intros e He Hsn. apply (Permutation_in _ (Permutation_sym HP)) in He. destruct (f2_in_r _ _ _ HA _ He) as ((n & t') & Hin & E1 & _). cbn [fst] in E1. subst.
    eapply HN; eauto. }
  destruct X as (x & L). destruct (c31_lemma d rp [s] _ s shown_lawful (component_path _ Hs) L) as (k & W).
  exists k. intros fuel Hf. unfold fuse_lookup. rewrite T, Ed, (W _ Hf). reflexivity.
Qed.

(** ** C76 *)
Lemma c76_past fs segs ino fs' b off n : mounted file fs -> found_at fs segs ino fs' -> Forall component segs -> selected t segs (FFile b) ->
  b <> [] -> len b <= off -> fuse_read fs' ino off n = Err EIO.
Proof.
  intros HM HF HC HS Hb Ho. destruct (found_denotes _ _ _ _ HM HF) as (M' & K). specialize (K HC _ HS). destruct (mounted_dev _ M') as (G & Ed & Er).
  destruct K as [(-> & -> & E)|(e & D & L & C & E)]; [destruct HO as (_ & _ & Ht & _); subst t; discriminate|].
  unfold fuse_read. rewrite D, Ed. destruct (file_past e b off n C Hb Ho) as (x & ->). reflexivity.
Qed.
End Shown.

Lemma contains_shown d cs r : lawful d -> contains d (FDir cs) r ->
  exists ws, returns (fun fuel => walk_dirent_tree fuel d r) (Ok ws) /\ Permutation (map entry_shown ws) (map child_shown cs).
Proof.
  intros HL Hc. apply contains_dir_inv in Hc as [(-> & HZ)|(T & es & HD & HP & HF)].
  - exists []. split; auto. exists O. intros fuel _. unfold walk_dirent_tree. rewrite (proj2 (region_empty_iff r) HZ). reflexivity.
  - exists (rpre T). split.
    + exists (S (size T)). intros fuel Hf. apply walk_tree_dir; auto.
    + rewrite rpre_perm, <- HP. replace (map child_shown cs) with (map entry_shown es); [reflexivity|].
      clear -HF. induction HF as [|c e cs es (A & B & _) HF IH]; cbn [map]; [reflexivity|]. rewrite IH. unfold entry_shown, child_shown. rewrite A, B. reflexivity.
Qed.

Lemma packed_listing m t img fs segs ino fs' cs : source t -> packs m t img -> mounted img fs -> found_at fs segs ino fs' ->
  Forall component segs -> selected t segs (FDir cs) ->
  mounted img fs' /\ exists r es fuel, dirtab_by_inode fs' ino = Some r /\ scan_all fuel (m_dev fs') r = Ok es
    /\ Permutation (map entry_shown es) (map child_shown cs).
Proof.
  intros Hs Hp HM HF HC HS. destruct (packed_opens m t img Hs Hp) as (v & Hv & HO).
  set (d := offset_dev (file_dev img) 0) in *.
  assert (E : forall o n, file_dev img o n = d o n) by (intros; unfold d, offset_dev; rewrite N.add_0_r; reflexivity).
  destruct (found_denotes _ _ _ _ HO _ _ _ _ HM HF) as (M' & K). specialize (K HC _ HS). split; auto.
  destruct (mounted_dev _ _ _ _ HO _ M') as (G & Ed & Er).
  assert (X : exists r p, dirtab_by_inode fs' ino = Some r /\ contains d (FDir cs) r /\ at_path t p (FDir cs) /\ region_at (file_dev img) (v_root v) p r).
  { destruct (denotes_dir _ _ _ _ HO _ _ _ _ M' K) as (r & T & C & _). exists r.
    destruct HS as [(-> & Et)|(n & HN)].
    - exists []. ssplit; auto; [rewrite Et; apply at_here|]. left. split; auto. destruct K as [(_ & -> & _)|(e & _ & L & _)]; [|inversion L].
      unfold dirtab_by_inode in T. rewrite N.eqb_refl, Er in T. injection T as <-. reflexivity.
    - destruct (names_path _ _ _ _ HN) as (p & Hat & Hne & HF2). exists p. ssplit; auto. right.
      destruct (c18_lemma m _ img v p cs Hs Hp Hv Hat) as (r' & [(Q & _)|(e & L & ->)] & _); [congruence|]. exists e. split; auto.
      destruct K as [(-> & _)|(e' & D & L' & _ & Hd)]; [inversion HN|].
      assert (L2 : lookup (file_dev img) (v_root v) segs (Ok e)) by (eapply lookup_case; eauto).
      apply (lookup_ext (file_dev img) d E) in L2. pose proof (lookup_fun _ _ _ _ (shown_lawful _ _ _ _ HO) L' _ L2) as <-.
      unfold dirtab_by_inode in T. unfold dirent_by_inode in D. destruct (ino =? 1); [discriminate|]. destruct (node_of _ ino) as [x|]; [|discriminate].
      injection D as ->. rewrite is_dir_table, Hd in T. cbn [is_fdir] in T. injection T as <-. reflexivity. }
  destruct X as (r & p & T & C & Hat & RA).
  destruct (c18_lemma m _ img v p cs Hs Hp Hv Hat) as (r' & RA' & es & ws & (k & A) & (k2 & A2) & B & _).
  pose proof (c18_unique _ _ _ _ _ RA RA') as <-. exists r, es, k. split; auto. split.
  - rewrite Ed, <- (scan_all_ext _ _ E). apply A. lia.
  - destruct (contains_shown _ _ _ (shown_lawful _ _ _ _ HO) C) as (ws' & (k3 & W) & P).
    specialize (A2 (Nat.max k2 k3) ltac:(lia)). specialize (W (Nat.max k2 k3) ltac:(lia)). rewrite <- (walk_dirent_tree_ext _ _ E) in W. rewrite A2 in W. injection W as <-.
    rewrite <- P. apply (Permutation_map (fun x => entry_shown (mkDentry (fst x) (snd x) 0))) in B. rewrite !map_map in B. exact B.
Qed.

Lemma c53_packed m t img fs segs ino fs' cs l fs2 : source t -> packs m t img -> mounted img fs -> found_at fs segs ino fs' ->
  Forall component segs -> selected t segs (FDir cs) -> reads_dir ino fs' 0 l fs2 ->
  exists rest, map shown l = dots ++ rest /\ Permutation rest (map child_shown cs).
Proof.
  intros Hs Hp HM HF HC HS HL. destruct (packed_listing _ _ _ _ _ _ _ _ Hs Hp HM HF HC HS) as (M' & r & es & k & T & A & P).
  exists (map entry_shown es). split; auto. eapply c53_lemma; eauto.
Qed.
Lemma c53_answers m t img fs segs ino fs' cs offset full : source t -> packs m t img -> mounted img fs -> found_at fs segs ino fs' ->
  Forall component segs -> selected t segs (FDir cs) -> roomy full ->
  exists n, forall fuel, (n <= fuel)%nat -> exists fs2 l, fuse_readdir fuel fs' ino offset full = (fs2, Ok l).
Proof.
  intros Hs Hp HM HF HC HS HR. destruct (packed_listing _ _ _ _ _ _ _ _ Hs Hp HM HF HC HS) as (M' & r & es & k & T & A & P).
  eapply c53_total; eauto.
Qed.

(** ** Running requests on a fresh mount *)
Definition fresh (img : list byte) : mount :=
  match mount_new img with Ok fs => fs | _ => mkMount (fun _ _ => Err OutOfBounds) (mkRegion 0 0) cache_new end.
Lemma fresh_mounted img : (match mount_new img with Ok _ => true | _ => false end) = true -> mounted img (fresh img).
Proof. unfold fresh. destruct (mount_new img) as [fs| | |] eqn:E; try discriminate. intros _. exists fs. split; auto. apply rq_none. Qed.
Definition after_lookup (fs : mount) (p : N) (n : str) : mount := fst (fuse_lookup 20 fs p n).
Lemma run_lookup fs p n a : snd (fuse_lookup 20 fs p n) = Ok a -> fuse_lookup 20 fs p n = (after_lookup fs p n, Ok a).
Proof. intros <-. apply surjective_pairing. Qed.
Definition after_readdir (fs : mount) (ino o : N) (full : list rdent -> rdent -> bool) : mount := fst (fuse_readdir 20 fs ino o full).
Lemma run_readdir fs ino o full l : snd (fuse_readdir 20 fs ino o full) = Ok l -> fuse_readdir 20 fs ino o full = (after_readdir fs ino o full, Ok l).
Proof. intros <-. apply surjective_pairing. Qed.

(** An image of another tool: a/x and b/x are empty files without a sector of
    their own. *)
Definition twin_table : list byte := record 0 0 0 0 32 [x78].
Definition twin_sector : list byte := twin_table ++ fill (2048 - len twin_table) xff.
Definition twin_img : list byte := image_of (record 0 4 34 2048 16 [x61] ++ record 0 0 35 2048 16 [x62]) (twin_sector ++ twin_sector).
Definition twin_tree : ftree := FDir [([97], FDir [([120], FFile [])]); ([98], FDir [([120], FFile [])])].
Definition twin_dev : dev := offset_dev (file_dev twin_img) 0.
Definition twin_entry (l r sector size attrs : N) (c : byte) (o : N) : dentry :=
  mkDentry (mkDnode l r (mkDdata (mkRegion sector size) attrs 1)) (c :: fill 255 x00) o.

Lemma twin_lawful : lawful twin_dev.
Proof. apply offset_lawful, file_lawful. Qed.
Lemma twin_stored o e : read_dirent twin_dev o = Ok (Some e) -> stored twin_dev e.
Proof. intros H. apply read_dirent_iff in H; [apply H|apply twin_lawful]. Qed.
Lemma twin_x k : k = 34 \/ k = 35 -> contains twin_dev (FDir [([120], FFile [])]) (mkRegion k 2048).
Proof.
  intros Hk. pose (e := twin_entry 0 0 0 0 32 x78 (2048 * k)).
  assert (R : read_dirent twin_dev (2048 * k) = Ok (Some e)) by (destruct Hk as [-> | ->]; vm_compute; reflexivity).
  apply (ct_dir _ _ _ (Node Leaf e Leaf) [e]); [|reflexivity|].
  - split; [|repeat constructor]. cbn [tree_at]. cbn [r_size r_sector e e_offset twin_entry e_node d_left d_right]. ssplit; auto; [reflexivity|lia|].
    eapply twin_stored; exact R.
  - constructor; [|constructor]. ssplit; [reflexivity|reflexivity|]. apply ct_file; [reflexivity|congruence].
Qed.
Lemma twin_opens : opens_as twin_img twin_dev root33 twin_tree.
Proof.
  split; [|split; [|split; [reflexivity|]]].
  - unfold open_image. assert (E : offset_wrapper_new (file_dev twin_img) = Ok 0) by (vm_compute; reflexivity). rewrite E. reflexivity.
  - exists (volume_new root33). vm_all.
  - pose (a := twin_entry 0 4 34 2048 16 x61 67584). pose (b := twin_entry 0 0 35 2048 16 x62 67600).
    assert (Ra : read_dirent twin_dev 67584 = Ok (Some a)) by (vm_compute; reflexivity).
    assert (Rb : read_dirent twin_dev 67600 = Ok (Some b)) by (vm_compute; reflexivity).
    apply (ct_dir _ _ _ (Node Leaf a (Node Leaf b Leaf)) [a; b]); [|reflexivity|].
    + split.
      * cbn [tree_at]. cbn [a b twin_entry root33 r_size r_sector e_offset e_node d_left d_right]. ssplit; try reflexivity; try lia; eapply twin_stored; eassumption.
      * cbn [inorder app]. constructor; [repeat constructor|]. constructor; [vm_compute; reflexivity|constructor].
    + constructor; [|constructor; [|constructor]]; (ssplit; [vm_compute; reflexivity|vm_compute; reflexivity|]); [apply (twin_x 34)|apply (twin_x 35)]; auto.
Qed.
