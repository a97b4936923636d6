(** The number of entries that a lookup reads (C144). *)
From Verif Require Import M_Base M_Util M_Layout M_Read M_Img M_Trace.
From Verif Require Import S_Avl S_Codec S_Read S_Img S_Sectors.
From Verif Require Import P_Base P_Path P_AvlTree P_Dirtab P_Scan P_Read P_Find P_Tree P_Back P_Packed P_Pack P_Run P_Image P_File P_Witness P_More P_Order P_Xfs P_Repack P_Check P_Sectors P_Tidy.
From Coq Require Import Init.Byte Permutation Relations Lia.
From Coq Require Import List.
Local Open Scope N_scope.

(** ** The same results *)
Lemma find_trace_same d r name fuel : forall o, snd (find_trace fuel d r name o) = find_loop fuel d r name o.
Proof.
  induction fuel as [|fuel IH]; intros o; [reflexivity|]. cbn [find_trace find_loop]. destruct (read_dirent d o) as [[e|]|e|p|]; try reflexivity. cbn [ok_or bind].
  assert (K : forall p, snd (if p =? 0 then ([], Err DoesNotExist) else match region_offset r (4 * p) with Ok offset => find_trace fuel d r name offset | Err e => ([], Err e) | Panic p => ([], Panic p) | OutOfFuel => ([], OutOfFuel) end)
    = if p =? 0 then Err DoesNotExist else let* offset := region_offset r (4 * p) in find_loop fuel d r name offset).
  { intros p. destruct (p =? 0); [reflexivity|]. destruct (region_offset r (4 * p)); cbn [bind]; auto. }
  destruct (cmp_ignore_case_utf8 name (name_str e)); [reflexivity| |].
  - rewrite <- K. destruct (if d_left (e_node e) =? 0 then _ else _) as [l x]. reflexivity.
  - rewrite <- K. destruct (if d_right (e_node e) =? 0 then _ else _) as [l x]. reflexivity.
Qed.
Lemma find_dirent_trace_same d r name fuel : snd (find_dirent_trace fuel d r name) = find_dirent fuel d r name.
Proof. unfold find_dirent_trace, find_dirent. destruct (region_is_empty r); [reflexivity|]. destruct (region_offset r 0); cbn [bind]; auto. apply find_trace_same. Qed.
Lemma segments_trace_same d fuel segs : forall r, snd (segments_trace fuel d r segs) = walk_segments fuel d r segs.
Proof.
  induction segs as [|s segs IH]; intros r; [reflexivity|]. cbn [segments_trace walk_segments]. rewrite <- find_dirent_trace_same.
  destruct (find_dirent_trace fuel d r s) as [l x]. cbn [snd]. destruct x as [e|e|p|]; try reflexivity. cbn [bind]. destruct segs as [|s' segs]; [reflexivity|].
  destruct (dirent_table (d_dirent (e_node e))) as [t|]; [|reflexivity]. cbn [ok_or bind]. rewrite <- IH. destruct (segments_trace fuel d t (s' :: segs)); reflexivity.
Qed.
Lemma walk_trace_same d r path fuel : snd (walk_trace fuel d r path) = walk_path fuel d r path.
Proof. unfold walk_trace, walk_path. destruct path; [reflexivity|]. destruct (str_eqb _ _); [reflexivity|]. apply segments_trace_same. Qed.

(** ** One directory *)
Lemma trace_tree d r name : lawful d -> forall t o fuel, tree_at d r o t ->
  (length (fst (find_trace fuel d r name (2048 * r_sector r + o))) <= depth t)%nat
  /\ forall e, snd (find_trace fuel d r name (2048 * r_sector r + o)) = Ok e -> In e (inorder t).
Proof.
  intros HL. induction t as [|l IHl x rt IHr]; intros o fuel HT; cbn [tree_at] in HT; [contradiction|].
  destruct HT as (Ho & Hx & HSt & Hl & Hr). destruct fuel as [|fuel]; [split; [apply Nat.le_0_l|discriminate]|].
  cbn [find_trace depth inorder].
  assert (HR : read_dirent d (2048 * r_sector r + o) = Ok (Some x)) by (apply read_dirent_iff; auto). rewrite HR.
  destruct (cmp_ignore_case_utf8 name (name_str x)) eqn:EC.
  - cbn [fst snd length]. split; [lia|]. intros e [= <-]. apply in_app_iff. right. left. reflexivity.
  - destruct l as [|l1 y l2].
    + rewrite Hl. change (0 =? 0) with true. cbn iota. cbn [fst snd length]. split; [lia|discriminate].
    + destruct Hl as (Hl1 & Hl2). destruct (N.eqb_spec (d_left (e_node x)) 0) as [K|_]; [lia|]. rewrite region_offset_ok by apply Hl2.
      specialize (IHl _ fuel Hl2). destruct (find_trace fuel d r name _) as [tr v]. cbn [fst snd length] in *. destruct IHl as (I1 & I2). split; [lia|].
      intros e He. apply in_app_iff. left. auto.
  - destruct rt as [|l1 y l2].
    + rewrite Hr. change (0 =? 0) with true. cbn iota. cbn [fst snd length]. split; [lia|discriminate].
    + destruct Hr as (Hl1 & Hl2). destruct (N.eqb_spec (d_right (e_node x)) 0) as [K|_]; [lia|]. rewrite region_offset_ok by apply Hl2.
      specialize (IHr _ fuel Hl2). destruct (find_trace fuel d r name _) as [tr v]. cbn [fst snd length] in *. destruct IHr as (I1 & I2). split; [lia|].
      intros e He. apply in_app_iff. right. right. auto.
Qed.
Lemma trace_dir d r name T fuel : lawful d -> directory d r T ->
  (length (fst (find_dirent_trace fuel d r name)) <= Nat.max 1 (depth T))%nat /\ forall e, snd (find_dirent_trace fuel d r name) = Ok e -> In e (inorder T).
Proof.
  intros HL HD. pose proof (directory_size _ _ _ HD) as HZ. unfold find_dirent_trace. rewrite region_nonempty by auto. rewrite region_offset_ok by auto.
  destruct HD as (HD & HS). destruct T as [|l x rt].
  - destruct fuel as [|fuel]; [split; [apply Nat.le_0_l|discriminate]|]. cbn [find_trace].
    assert (HR : read_dirent d (2048 * r_sector r + 0) = Ok None) by (apply read_dirent_none; auto; rewrite N.add_0_r; apply HD).
    rewrite HR. change (0 =? 0) with true. cbn iota. cbn [fst snd length]. split; [lia|discriminate].
  - destruct (trace_tree d r name HL (Node l x rt) 0 fuel HD) as (I1 & I2). split; [lia|exact I2].
Qed.

(** ** Paths *)
Definition low (d : dev) (k : nat) (r : region) : Prop := forall r', clos_refl_trans_1n region (child_table d) r r' -> exists T, directory d r' T /\ (Nat.max 1 (depth T) <= k)%nat.
Lemma trace_segments d k fuel segs : lawful d -> forall r, low d k r -> (length (fst (segments_trace fuel d r segs)) <= k * length segs)%nat.
Proof.
  intros HL. induction segs as [|s segs IH]; intros r HK; [cbn; lia|]. cbn [segments_trace length].
  destruct (HK r (rt1n_refl _ _ r)) as (T & HD & Hd). destruct (trace_dir d r s T fuel HL HD) as (I1 & I2).
  destruct (find_dirent_trace fuel d r s) as [l x]. cbn [fst snd] in *. assert (K : (length l <= k)%nat) by lia.
  destruct x as [e|e|p|]; try (cbn [fst]; lia). destruct segs as [|s' segs]; [cbn [fst length]; lia|].
  unfold dirent_table. destruct (is_directory (d_dirent (e_node e))) eqn:ED; [|cbn [fst length]; lia].
  assert (HK' : low d k (d_region (d_dirent (e_node e)))).
  { intros r' Hr. apply HK. econstructor; [|exact Hr]. exists T, e. repeat split; auto; apply HD. }
  specialize (IH _ HK'). destruct (segments_trace fuel d _ (s' :: segs)) as [l' x']. cbn [fst length] in *. rewrite app_length. lia.
Qed.
Lemma walk_trace_segs fuel d r segs path : path_of segs path -> walk_trace fuel d r path = segments_trace fuel d r segs.
Proof.
  intros H. unfold walk_trace. destruct (path_of_not_root _ _ H) as (H1 & H2). destruct path as [|c path]; [congruence|].
  destruct (str_eqb (c :: path) [SLASH]) eqn:E; [apply str_eqb_spec in E; congruence|]. rewrite (path_of_split _ _ H). reflexivity.
Qed.

(** ** Packed images *)
Lemma fib_step n : (fib n <= fib (S n))%nat.
Proof. destruct n as [|n]; [cbn; lia|]. change (fib (S (S n))) with (fib (S n) + fib n)%nat. lia. Qed.
Lemma fib_mono a b : (a <= b)%nat -> (fib a <= fib b)%nat.
Proof. induction 1 as [|b H IH]; [lia|]. pose proof (fib_step b). lia. Qed.
Lemma dtree_size {A} (T : dtree A) : size T = length (inorder T).
Proof. induction T as [|l IHl x r IHr]; cbn [size inorder]; [reflexivity|]. rewrite app_length. cbn [length]. lia. Qed.
Lemma packed_low m t img v n k : source t -> packs m t img -> read_volume (file_dev img) = Ok v -> every_dir (fun cs => (length cs <= n)%nat \/ 16384 <= N.of_nat n) t ->
  (1 <= k)%nat -> (n + 1 < fib (k + 3))%nat -> low (file_dev img) k (v_root v).
Proof.
  intros HS Hp Hv Hn Hk Hf. destruct (packs_final m t img HS Hp) as (pls & rs & HL & ->). pose proof HS as (Ht & HP & _).
  destruct (final_volume m t pls rs HP HL) as (v' & Hv' & Hroot). rewrite Hv in Hv'. injection Hv' as <-.
  set (d := file_dev (final t pls rs)) in *. assert (HLd : lawful d) by apply file_lawful.
  pose proof (dir_view m t pls rs HP HL d (final_view m t pls rs HP HL)) as DV.
  assert (G : forall r r', clos_refl_trans_1n region (child_table d) r r' -> (exists q cs, at_path t q (FDir cs) /\ In (q, (r_sector r, r_size r)) (regs rs pls)) -> exists q cs, at_path t q (FDir cs) /\ In (q, (r_sector r', r_size r')) (regs rs pls)).
  { induction 1 as [r|r r1 r' (T & e & HD & Hin & He & ->) _ IH]; intros (q & cs & Hat & Hr); [eauto|]. apply IH.
    destruct (DV q cs _ _ Hat Hr) as (T' & es & T1 & T2 & T3 & _). destruct r as [rsec rsz]. cbn [r_sector r_size] in *.
    pose proof (directory_fun _ _ _ _ HLd HD T1) as <-. assert (Hin' : In e es) by (eapply Permutation_in; [symmetry; exact T2|exact Hin]).
    apply F2_swap in T3. destruct (f2_in_l _ _ _ T3 _ Hin') as ([nm sub] & Hc & R1 & R2 & R3). cbn [fst snd] in *. rewrite He in R2. destruct sub as [b|cs1]; [discriminate|].
    exists (from_base q nm), cs1. split; [eapply at_path_snoc; eauto|exact R3]. }
  intros r' Hr. apply G in Hr as (q & cs & Hat & Hreg).
  - destruct (DV q cs _ _ Hat Hreg) as (T & es & T1 & T2 & T3 & _ & T5 & T6). destruct r' as [rsec rsz]. cbn [r_sector r_size] in *. exists T. split; [exact T1|].
    apply balanced_fib in T5. apply Forall2_length in T3. pose proof (Permutation_length T2) as L. rewrite dtree_size in T5.
    assert (Hc : (length cs <= n)%nat) by (destruct (Hn q cs Hat) as [H|H]; [exact H|]; unfold len in T6; lia).
    destruct (Nat.le_gt_cases (depth T) k) as [Hd|Hd]; [lia|]. assert (X : (fib (k + 3) <= fib (depth T + 2))%nat) by (apply fib_mono; lia). lia.
  - rewrite Hroot. destruct t as [b|cs]; [discriminate|]. exists [], cs. split; [constructor|]. left. reflexivity.
Qed.
Lemma c144_lemma m t img v n k segs path fuel : source t -> packs m t img -> read_volume (file_dev img) = Ok v -> path_of segs path ->
  every_dir (fun cs => (length cs <= n)%nat) t -> (1 <= k)%nat -> (n + 1 < fib (k + 3))%nat -> (length (fst (walk_trace fuel (file_dev img) (v_root v) path)) <= k * length segs)%nat.
Proof.
  intros HS Hp Hv HP Hn Hk Hf. rewrite (walk_trace_segs _ _ _ _ _ HP). apply trace_segments; [apply file_lawful|].
  eapply packed_low; eauto. intros q cs Hat. left. exact (Hn q cs Hat).
Qed.
Lemma c144_any_lemma m t img v segs path fuel : source t -> packs m t img -> read_volume (file_dev img) = Ok v -> path_of segs path ->
  (length (fst (walk_trace fuel (file_dev img) (v_root v) path)) <= 19 * length segs)%nat.
Proof.
  intros HS Hp Hv HP. rewrite (walk_trace_segs _ _ _ _ _ HP). apply trace_segments; [apply file_lawful|].
  apply (packed_low m t img v (Pos.to_nat 16384) 19 HS Hp Hv); [|lia|].
  - intros q cs _. right. lia.
  - apply Nat.ltb_lt. vm_compute. reflexivity.
Qed.
Lemma c144_foreign_lemma d r T name fuel : lawful d -> directory d r T -> (length (fst (find_dirent_trace fuel d r name)) <= Nat.max 1 (depth T))%nat.
Proof. intros HL HD. apply (trace_dir d r name T fuel HL HD). Qed.

Lemma c144_empty_lemma d r name fuel : r_size r = 0 -> find_dirent_trace fuel d r name = ([], Err DirectoryEmpty).
Proof. intros E. unfold find_dirent_trace, region_is_empty. rewrite E. reflexivity. Qed.
