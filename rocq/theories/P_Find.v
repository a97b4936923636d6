(** Proofs about lookups and tree walks. *)
From Verif Require Import M_Base M_Util M_Layout M_Read S_Avl S_Codec S_Read P_Base P_Layout P_Codec P_Path P_Read.
From Coq Require Import Init.Byte Sorted Permutation.
Local Open Scope N_scope.

Lemma same_name_iff a b : cmp_ignore_case_utf8 a b = Eq <-> same_name a b.
Proof.
  rewrite cmp_ic_eq. unfold same_name. rewrite !(map_ext _ _ upper_ok). tauto.
Qed.

Lemma region_offset_ok r o : o < r_size r -> region_offset r o = Ok (2048 * r_sector r + o).
Proof. intros H. unfold region_offset. destruct (N.leb_spec (r_size r) o); [lia|reflexivity]. Qed.

Lemma region_offset_inv r o x : region_offset r o = Ok x -> o < r_size r /\ x = 2048 * r_sector r + o.
Proof.
  unfold region_offset. destruct (N.leb_spec (r_size r) o); intros H1; [discriminate|]. injection H1 as <-. auto.
Qed.

Lemma region_empty_iff r : region_is_empty r = true <-> r_size r = 0.
Proof. unfold region_is_empty. apply N.eqb_eq. Qed.
Lemma region_nonempty r : 0 < r_size r -> region_is_empty r = false.
Proof. intros H. unfold region_is_empty. apply N.eqb_neq. lia. Qed.

(** ** Soundness of lookups (C30) *)
Lemma find_loop_sound d r name fuel : lawful d -> forall off e,
  (exists o, o < r_size r /\ off = 2048 * r_sector r + o) ->
  find_loop fuel d r name off = Ok e -> stored_in d r e /\ same_name name (name_str e).
Proof.
  intros HL. induction fuel as [|fuel IH]; intros off e (o & Ho & ->) H; cbn [find_loop] in H; [discriminate|].
  apply bind_ok in H. destruct H as ([e1|] & H1 & H); cbn [ok_or bind] in H; [|discriminate].
  apply read_dirent_iff in H1; auto. destruct H1 as (H1 & H2).
  destruct (cmp_ignore_case_utf8 name (name_str e1)) eqn:EC.
  - injection H as <-. split; [|apply same_name_iff; auto]. split; auto. lia.
  - destruct (d_left (e_node e1) =? 0); [discriminate|]. apply bind_ok in H. destruct H as (x & HX & H).
    apply region_offset_inv in HX. destruct HX as (HX & ->). eapply IH; eauto.
  - destruct (d_right (e_node e1) =? 0); [discriminate|]. apply bind_ok in H. destruct H as (x & HX & H).
    apply region_offset_inv in HX. destruct HX as (HX & ->). eapply IH; eauto.
Qed.

Lemma find_dirent_sound d r name fuel e : lawful d ->
  find_dirent fuel d r name = Ok e -> stored_in d r e /\ same_name name (name_str e).
Proof.
  intros HL H. unfold find_dirent in H. destruct (region_is_empty r); [discriminate|].
  apply bind_ok in H. destruct H as (x & HX & H). apply region_offset_inv in HX. destruct HX as (HX & ->).
  eapply find_loop_sound; eauto.
Qed.

Lemma walk_segments_sound d fuel : lawful d -> forall segs r e,
  walk_segments fuel d r segs = Ok e -> leads d r segs e.
Proof.
  intros HL. induction segs as [|s segs IH]; intros r e H; cbn [walk_segments] in H; [discriminate|].
  apply bind_ok in H. destruct H as (e1 & H1 & H). apply find_dirent_sound in H1; auto. destruct H1 as (H1 & H2).
  destruct segs as [|s' segs].
  - injection H as <-. apply leads_last; auto.
  - apply bind_ok in H. destruct H as (t & Ht & H). unfold ok_or, dirent_table in Ht.
    destruct (is_directory (d_dirent (e_node e1))) eqn:ED; [|discriminate]. injection Ht as <-.
    eapply leads_step; eauto. discriminate.
Qed.

Lemma c30_lemma d r path fuel e : lawful d -> walk_path fuel d r path = Ok e ->
  exists segs, path_of segs path /\ leads d r segs e.
Proof.
  intros HL H. destruct (path_cases path) as [(n & ->)|(segs & HP)].
  - exfalso. destruct n as [|[|n]]; [discriminate|discriminate|].
    unfold walk_path in H. cbn [repeat] in H.
    destruct (str_eqb _ _); [discriminate|].
    rewrite <- (app_nil_r (47 :: 47 :: repeat 47 n)) in H. change (47 :: 47 :: repeat 47 n) with (repeat 47 (S (S n))) in H.
    rewrite trim_repeat in H. discriminate.
  - exists segs. split; auto. rewrite (walk_path_segs _ _ _ _ _ HP) in H. eapply walk_segments_sound; eauto.
Qed.

(** ** Completeness on search trees (C31) *)
Notation ncmp := (fun a b : dentry => cmp_ignore_case_utf8 (name_str a) (name_str b)).

Lemma sorted_app_inv {A} (R : A -> A -> Prop) l1 x l2 : StronglySorted R (l1 ++ x :: l2) ->
  StronglySorted R l1 /\ StronglySorted R l2 /\ (forall y, In y l1 -> R y x) /\ (forall y, In y l2 -> R x y).
Proof.
  induction l1 as [|a l1 IH]; cbn; intros H.
  - apply StronglySorted_inv in H. destruct H as (H1 & H2). ssplit; auto; [constructor|intros y []|].
    rewrite Forall_forall in H2. auto.
  - apply StronglySorted_inv in H. destruct H as (H1 & H2). destruct (IH H1) as (A1 & A2 & A3 & A4).
    rewrite Forall_forall in H2. ssplit; auto.
    + constructor; auto. rewrite Forall_forall. intros y Hy. apply H2. apply in_app_iff; auto.
    + intros y [<-|Hy]; auto. apply H2. apply in_app_iff. right; left; auto.
Qed.

Lemma find_loop_complete d r s : lawful d -> forall t o fuel,
  tree_at d r o t -> strictly_sorted ncmp (inorder t) -> (depth t <= fuel)%nat ->
  (forall e, In e (inorder t) -> same_name s (name_str e) -> find_loop fuel d r s (2048 * r_sector r + o) = Ok e)
  /\ ((forall e, In e (inorder t) -> ~ same_name s (name_str e)) -> find_loop fuel d r s (2048 * r_sector r + o) = Err DoesNotExist).
Proof.
  intros HL. induction t as [|l IHl x rt IHr]; intros o fuel HT HS HD; cbn [tree_at] in HT; [contradiction|].
  destruct HT as (Ho & Hx & HSt & Hl & Hr). cbn [depth] in HD. destruct fuel as [|fuel]; [lia|].
  cbn [inorder] in *. apply sorted_app_inv in HS. destruct HS as (HS1 & HS2 & HS3 & HS4).
  cbn [find_loop].
  assert (HR : read_dirent d (2048 * r_sector r + o) = Ok (Some x)) by (apply read_dirent_iff; auto).
  rewrite HR. cbn [ok_or bind].
  assert (TL : l <> Leaf -> d_left (e_node x) =? 0 = false /\ region_offset r (4 * d_left (e_node x)) = Ok (2048 * r_sector r + 4 * d_left (e_node x))
     /\ tree_at d r (4 * d_left (e_node x)) l).
  { intros NL. destruct l as [|l1 y l2]; [congruence|]. destruct Hl as (Hl1 & Hl2). ssplit; auto.
    - apply N.eqb_neq. lia.
    - apply region_offset_ok. apply Hl2. }
  assert (TR : rt <> Leaf -> d_right (e_node x) =? 0 = false /\ region_offset r (4 * d_right (e_node x)) = Ok (2048 * r_sector r + 4 * d_right (e_node x))
     /\ tree_at d r (4 * d_right (e_node x)) rt).
  { intros NL. destruct rt as [|l1 y l2]; [congruence|]. destruct Hr as (Hl1 & Hl2). ssplit; auto.
    - apply N.eqb_neq. lia.
    - apply region_offset_ok. apply Hl2. }
  destruct (cmp_ignore_case_utf8 s (name_str x)) eqn:EC.
  - split.
    + intros e He Hs. f_equal. apply same_name_iff in Hs. apply in_app_iff in He. destruct He as [He|[He|He]]; auto.
      * specialize (HS3 e He). assert (cmp_ignore_case_utf8 (name_str e) (name_str x) = Eq).
        { apply cmp_ic_eq. apply cmp_ic_eq in EC, Hs. congruence. } cbn in HS3. congruence.
      * specialize (HS4 e He). assert (cmp_ignore_case_utf8 (name_str x) (name_str e) = Eq).
        { apply cmp_ic_eq. apply cmp_ic_eq in EC, Hs. congruence. } cbn in HS4. congruence.
    + intros H. destruct (H x); [apply in_app_iff; right; left; auto|]. apply same_name_iff; auto.
  - assert (HG : forall e, In e (inorder l ++ x :: inorder rt) -> same_name s (name_str e) -> In e (inorder l)).
    { intros e He Hs. apply same_name_iff in Hs. apply in_app_iff in He. destruct He as [He|[<-|He]]; auto; [congruence|].
      specialize (HS4 e He). cbn in HS4. pose proof (cmp_ic_trans _ _ _ EC HS4). congruence. }
    destruct l as [|l1 y l2].
    + cbn [app inorder] in *. rewrite Hl. change (0 =? 0) with true. cbn iota. split; auto.
      intros e He Hs. destruct (HG e He Hs).
    + destruct (TL ltac:(discriminate)) as (-> & -> & TA). cbn [bind].
      destruct (IHl _ fuel TA HS1 ltac:(lia)) as (I1 & I2). split.
      * intros e He Hs. apply I1; auto.
      * intros H. apply I2. intros e He. apply H. apply in_app_iff; auto.
  - assert (HG : forall e, In e (inorder l ++ x :: inorder rt) -> same_name s (name_str e) -> In e (inorder rt)).
    { intros e He Hs. apply same_name_iff in Hs. apply in_app_iff in He. destruct He as [He|[<-|He]]; auto; [|congruence].
      specialize (HS3 e He). cbn in HS3. rewrite cmp_ic_opp in EC. 
      destruct (cmp_ignore_case_utf8 (name_str x) s) eqn:E1; try discriminate.
      pose proof (cmp_ic_trans _ _ _ HS3 E1) as E2. rewrite cmp_ic_opp, Hs in E2. discriminate. }
    destruct rt as [|l1 y l2].
    + cbn [app inorder] in *. rewrite Hr. change (0 =? 0) with true. cbn iota. split; auto.
      intros e He Hs. destruct (HG e He Hs).
    + destruct (TR ltac:(discriminate)) as (-> & -> & TA). cbn [bind].
      destruct (IHr _ fuel TA HS2 ltac:(lia)) as (I1 & I2). split.
      * intros e He Hs. apply I1; auto.
      * intros H. apply I2. intros e He. apply H. apply in_app_iff. right; right; auto.
Qed.

Lemma directory_size d r t : directory d r t -> 0 < r_size r.
Proof. intros (H & _). destruct t; [apply H|]. destruct H as (H & _). lia. Qed.

Lemma find_dirent_complete d r s t fuel : lawful d -> directory d r t -> (S (depth t) <= fuel)%nat ->
  (forall e, In e (inorder t) -> same_name s (name_str e) -> find_dirent fuel d r s = Ok e)
  /\ ((forall e, In e (inorder t) -> ~ same_name s (name_str e)) -> find_dirent fuel d r s = Err DoesNotExist).
Proof.
  intros HL HD HF. pose proof (directory_size _ _ _ HD) as HZ. unfold find_dirent.
  rewrite region_nonempty by auto. rewrite region_offset_ok by auto. cbn [bind].
  destruct HD as (HD & HS). destruct t as [|l x rt].
  - split; [intros e []|]. intros _. destruct fuel as [|fuel]; [lia|]. cbn [find_loop].
    assert (HR : read_dirent d (2048 * r_sector r + 0) = Ok None) by (apply read_dirent_none; auto; rewrite N.add_0_r; apply HD).
    rewrite HR. reflexivity.
  - apply (find_loop_complete d r s HL (Node l x rt)); auto. lia.
Qed.

Lemma is_dir_table e : dirent_table (d_dirent (e_node e)) = if is_dir e then Some (region_of e) else None.
Proof. reflexivity. Qed.

Lemma lookup_lemma d r segs o : lawful d -> lookup d r segs o ->
  returns (fun fuel => walk_segments fuel d r segs) o.
Proof.
  intros HL H. induction H as [r s segs H|r t s segs HD HA|r t s e HD HI HN|r t s e segs HD HI HN HS HF|r t s e segs o HD HI HN HS HF HK (n & IH)].
  - exists 0%nat. intros fuel _. cbn [walk_segments]. unfold find_dirent.
    rewrite (proj2 (region_empty_iff r)) by auto. destruct segs; reflexivity.
  - exists (S (depth t)). intros fuel Hf. cbn [walk_segments].
    rewrite (proj2 (find_dirent_complete d r s t fuel HL HD Hf)) by auto. reflexivity.
  - exists (S (depth t)). intros fuel Hf. cbn [walk_segments].
    rewrite (proj1 (find_dirent_complete d r s t fuel HL HD Hf) e) by auto. reflexivity.
  - exists (S (depth t)). intros fuel Hf. cbn [walk_segments].
    rewrite (proj1 (find_dirent_complete d r s t fuel HL HD Hf) e) by auto. cbn [bind].
    destruct segs; [congruence|]. rewrite is_dir_table, HF. reflexivity.
  - exists (Nat.max n (S (depth t))). intros fuel Hf. cbn [walk_segments].
    rewrite (proj1 (find_dirent_complete d r s t fuel HL HD ltac:(lia)) e) by auto. cbn [bind].
    destruct segs as [|s' segs]; [congruence|]. rewrite is_dir_table, HF. cbn [ok_or bind]. apply IH. lia.
Qed.

Lemma c31_lemma d r segs o path : lawful d -> path_of segs path -> lookup d r segs o ->
  returns (fun fuel => walk_path fuel d r path) o.
Proof.
  intros HL HP HK. destruct (lookup_lemma d r segs o HL HK) as (n & H). exists n. intros fuel Hf.
  rewrite (walk_path_segs _ _ _ _ _ HP). auto.
Qed.

(** ** Tree walk *)
Fixpoint rpre {A} (t : dtree A) : list A :=
  match t with Leaf => [] | Node l x r => x :: rpre r ++ rpre l end.

Lemma rpre_perm {A} (t : dtree A) : Permutation (rpre t) (inorder t).
Proof.
  induction t as [|l IHl x r IHr]; cbn; auto.
  apply Permutation_cons_app. rewrite Permutation_app_comm. apply Permutation_app; auto.
Qed.

Lemma walk_loop_tree d r : lawful d -> forall t o k st acc,
  tree_at d r o t -> walk_loop (size t + k) d r (o :: st) acc = walk_loop k d r st (acc ++ rpre t).
Proof.
  intros HL. induction t as [|l IHl x rt IHr]; intros o k st acc HT; cbn [tree_at] in HT; [contradiction|].
  destruct HT as (Ho & Hx & HSt & Hl & Hr). cbn [size plus walk_loop].
  rewrite region_offset_ok by auto. cbn [bind].
  assert (HR : read_dirent d (2048 * r_sector r + o) = Ok (Some x)) by (apply read_dirent_iff; auto).
  rewrite HR. cbn [bind].
  destruct l as [|l1 y l2]; destruct rt as [|r1 z r2].
  - rewrite Hl, Hr. change (negb (0 =? 0) && negb (0 =? 65535)) with false. cbn iota. cbn. rewrite ?app_nil_r. reflexivity.
  - rewrite Hl. change (negb (0 =? 0) && negb (0 =? 65535)) with false. cbn iota.
    destruct Hr as (Hr1 & Hr2).
    replace (negb (d_right (e_node x) =? 0) && negb (d_right (e_node x) =? 65535)) with true
      by (symmetry; apply andb_true_iff; split; apply negb_true_iff; apply N.eqb_neq; lia).
    change (size Leaf) with 0%nat. cbn [plus].
    rewrite IHr by auto. rewrite <- app_assoc. cbn [rpre app]. rewrite app_nil_r. reflexivity.
  - rewrite Hr. change (negb (0 =? 0) && negb (0 =? 65535)) with false. cbn iota.
    destruct Hl as (Hl1 & Hl2).
    replace (negb (d_left (e_node x) =? 0) && negb (d_left (e_node x) =? 65535)) with true
      by (symmetry; apply andb_true_iff; split; apply negb_true_iff; apply N.eqb_neq; lia).
    change (size (@Leaf dentry)) with 0%nat. rewrite Nat.add_0_r.
    rewrite IHl by auto. rewrite <- app_assoc. reflexivity.
  - destruct Hl as (Hl1 & Hl2). destruct Hr as (Hr1 & Hr2).
    replace (negb (d_left (e_node x) =? 0) && negb (d_left (e_node x) =? 65535)) with true
      by (symmetry; apply andb_true_iff; split; apply negb_true_iff; apply N.eqb_neq; lia).
    replace (negb (d_right (e_node x) =? 0) && negb (d_right (e_node x) =? 65535)) with true
      by (symmetry; apply andb_true_iff; split; apply negb_true_iff; apply N.eqb_neq; lia).
    replace (size (Node l1 y l2) + size (Node r1 z r2) + k)%nat with (size (Node r1 z r2) + (size (Node l1 y l2) + k))%nat by lia.
    rewrite IHr by auto. rewrite IHl by auto. f_equal. rewrite <- !app_assoc. reflexivity.
Qed.

Lemma walk_tree_dir d r t fuel : lawful d -> directory d r t -> (S (size t) <= fuel)%nat ->
  walk_dirent_tree fuel d r = Ok (rpre t).
Proof.
  intros HL HD Hf. pose proof (directory_size _ _ _ HD) as HZ. unfold walk_dirent_tree.
  rewrite region_nonempty by auto. destruct HD as (HD & HS). destruct t as [|l x rt].
  - destruct fuel as [|fuel]; [lia|]. cbn [walk_loop]. rewrite region_offset_ok by auto. cbn [bind].
    assert (HR : read_dirent d (2048 * r_sector r + 0) = Ok None) by (apply read_dirent_none; auto; rewrite N.add_0_r; apply HD).
    rewrite HR. cbn [bind]. destruct fuel; reflexivity.
  - replace fuel with (size (Node l x rt) + (fuel - size (Node l x rt)))%nat by lia.
    rewrite walk_loop_tree by auto. destruct (fuel - size (Node l x rt))%nat; reflexivity.
Qed.

(** ** Recursive listing *)
Definition cont (d : dev) (stack : list (str * region)) (m : list (str * dentry)) : Prop :=
  forall out, returns (fun fuel => file_tree_loop fuel d stack out) (Ok (out ++ m)).

Definition listed (d : dev) (p : str) (r : region) (l : list (str * dentry)) : Prop :=
  forall stack m, cont d stack m -> exists m', Permutation m' (l ++ m) /\ cont d ((p, r) :: stack) m'.

Lemma push_listed d p es ls :
  Forall2 (fun e l => (is_dir e = true -> listed d (p ++ [47] ++ name_str e) (region_of e) l) /\ (is_dir e = false -> l = [])) es ls ->
  forall stack m, cont d stack m -> exists m', Permutation m' (concat ls ++ m) /\ cont d (push_dirs p es stack) m'.
Proof.
  induction 1 as [|e l es ls (H1 & H2) HF IH]; intros stack m Hc; cbn [concat].
  - exists m. auto.
  - change (push_dirs p (e :: es) stack) with (push_dirs p es (match dirent_table (d_dirent (e_node e)) with
      | Some t => (p ++ [SLASH] ++ name_str e, t) :: stack | None => stack end)).
    rewrite is_dir_table. destruct (is_dir e) eqn:ED.
    + destruct (H1 eq_refl stack m Hc) as (m1 & P1 & C1). destruct (IH _ _ C1) as (m2 & P2 & C2).
      exists m2. split; auto. rewrite P2, P1. rewrite !app_assoc. apply Permutation_app_tail. apply Permutation_app_comm.
    + rewrite (H2 eq_refl). cbn [app]. apply IH; auto.
Qed.

Scheme tl_ind2 := Minimality for tree_listing Sort Prop
  with sl_ind2 := Minimality for sub_listing Sort Prop.

Lemma tree_listed d : lawful d -> forall p r l, tree_listing d p r l -> listed d p r l.
Proof.
  intros HL. apply (tl_ind2 d (listed d)
    (fun p es l => exists ls, l = concat ls /\
       Forall2 (fun e l => (is_dir e = true -> listed d (p ++ [47] ++ name_str e) (region_of e) l) /\ (is_dir e = false -> l = [])) es ls)).
  - intros p r HZ stack m Hc. exists m. split; auto. intros out. destruct (Hc out) as (n & H). exists (S n). intros [|fuel] Hf; [lia|].
    cbn [file_tree_loop]. unfold walk_dirent_tree. rewrite (proj2 (region_empty_iff r)) by auto. cbn [bind map push_dirs fold_left].
    rewrite app_nil_r. apply H. lia.
  - intros p r t l HD _ (ls & -> & HF) stack m Hc.
    destruct (Permutation_Forall2 (Permutation_sym (rpre_perm t)) HF) as (ls' & PL & HF').
    destruct (push_listed d p _ _ HF' stack m Hc) as (m' & PM & Hc').
    exists (map (fun e => (p, e)) (rpre t) ++ m'). split.
    + rewrite PM, app_assoc. apply Permutation_app_tail. apply Permutation_app.
      * apply Permutation_map. apply rpre_perm.
      * clear -PL. induction PL; cbn; auto.
        -- apply Permutation_app_head; auto.
        -- rewrite !app_assoc. apply Permutation_app_tail. apply Permutation_app_comm.
        -- etransitivity; eauto.
    + intros out. destruct (Hc' (out ++ map (fun e => (p, e)) (rpre t))) as (n & H).
      exists (S (Nat.max n (S (size t)))). intros [|fuel] Hf; [lia|]. cbn [file_tree_loop].
      rewrite (walk_tree_dir d r t fuel) by (auto; lia). cbn [bind]. rewrite H by lia. rewrite <- app_assoc. reflexivity.
  - intros p. exists []. split; auto.
  - intros p e es l HE _ (ls & -> & HF). exists ([] :: ls). split; auto. constructor; auto. split; auto. congruence.
  - intros p e es l l' HE _ HT _ (ls & -> & HF). exists (l :: ls). split; auto. constructor; auto. split; auto. congruence.
Qed.

Lemma file_tree_lemma d r l : lawful d -> tree_listing d [] r l ->
  exists out, Permutation out l /\ returns (fun fuel => file_tree fuel d r) (Ok out).
Proof.
  intros HL HT. destruct (tree_listed d HL _ _ _ HT [] []) as (m & PM & Hc).
  - intros out. exists 0%nat. intros fuel _. destruct fuel; cbn; rewrite app_nil_r; reflexivity.
  - exists m. rewrite app_nil_r in PM. split; auto. destruct (Hc []) as (n & H). exists n. intros fuel Hf. apply H. auto.
Qed.
