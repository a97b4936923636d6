(** Proofs about unpacking onto hosts that fold names (C164). *)
From Verif Require Import M_Base M_Util M_Layout M_Read M_Img M_Cli M_Host M_Unpack M_Fold S_Avl S_Codec S_Read S_Img S_Check S_Cli S_Unpack S_Fold.
From Verif Require Import P_Base P_Codec P_Back P_Find P_Tree P_More P_Src P_Check P_Cli P_Mono P_Host P_Unpack.
From Coq Require Import Init.Byte Lia Permutation.
Local Open Scope N_scope.

Section Fold.
Variable f : N -> N.
Hypothesis Hf : folding f.
Definition fp (p : path) : path := map (map f) p.

Lemma fold_eqb c : (f c =? SLASH) = (c =? SLASH).
Proof. destruct (c =? SLASH) eqn:E; [apply N.eqb_eq in E; apply N.eqb_eq, Hf; exact E|apply N.eqb_neq; apply N.eqb_neq in E; intros H; apply E, Hf, H]. Qed.
Lemma fold_abs s : is_absolute (map f s) = is_absolute s.
Proof. destruct s; [reflexivity|]. cbn. apply fold_eqb. Qed.
Lemma fold_join a b : map f (pjoin a b) = pjoin (map f a) (map f b).
Proof.
  unfold pjoin. rewrite fold_abs. destruct (is_absolute b); [reflexivity|]. rewrite <- map_rev. destruct (rev a) as [|c r]; [reflexivity|]. cbn [map]. rewrite fold_eqb.
  destruct (c =? SLASH); rewrite !map_app; [reflexivity|]. do 2 f_equal. cbn. rewrite (proj2 (proj1 (Hf SLASH)) eq_refl). reflexivity.
Qed.
Lemma fold_trim s : map f (trim_start s) = trim_start (map f s).
Proof. induction s as [|c s IH]; [reflexivity|]. cbn [trim_start map]. rewrite fold_eqb. destruct (c =? SLASH); [exact IH|reflexivity]. Qed.
Lemma fold_slashed p : map f (slashed p) = slashed (fp p).
Proof.
  unfold slashed, fp. induction p as [|n p IH]; [reflexivity|]. cbn [map concat]. rewrite !map_app, IH. cbn [map app]. rewrite (proj2 (proj1 (Hf 47)) eq_refl). reflexivity.
Qed.
Lemma fold_in s c : (forall x, f x = c <-> x = c) -> In c (map f s) -> In c s.
Proof. intros H Hi. apply in_map_iff in Hi as (x & E & Hx). apply (proj1 (H x)) in E. subst x. exact Hx. Qed.
Lemma fold_name n : unix_name n -> unix_name (map f n).
Proof.
  intros (H1 & H2 & H3 & H4 & H5). split; [|split; [|split; [|split]]].
  - destruct n; [congruence|discriminate].
  - intros E. destruct n as [|a [|b n]]; try discriminate. injection E as E. apply (proj1 (proj2 (Hf a))) in E. congruence.
  - intros E. destruct n as [|a [|b [|c n]]]; try discriminate. injection E as E E'. apply (proj1 (proj2 (Hf a))) in E. apply (proj1 (proj2 (Hf b))) in E'. congruence.
  - intros H. apply H4. eapply fold_in; [intros x; apply Hf|exact H].
  - intros H. apply H5. eapply fold_in; [intros x; apply Hf|exact H].
Qed.

(** ** The loop *)
Definition fold_make (file : list byte) (base : N) (x : str * dentry) (y : path * hnode) : Prop :=
  exists q n, fst y = fp (q ++ [n]) /\ fst x = slashed q /\ name_str (snd x) = n /\ Forall unix_name (q ++ [n])
    /\ d_namelen (d_dirent (e_node (snd x))) <> 0 /\ snd y = node_of file base (snd x).
Lemma fold_makes cwd file base dest : makes_one cwd file base (map f dest) (str * dentry) (fold_loop f cwd file base dest) (fold_make file base).
Proof.
  intros [dir e] y (q & n & E1 & E2 & E3 & E4 & E5 & E6). cbn [fst snd] in *. subst dir. exists (fp q), (map f n), e. ssplit; auto.
  - rewrite E1. unfold fp. rewrite map_app. reflexivity.
  - rewrite E1. unfold fp. rewrite Forall_map. eapply Forall_impl; [|exact E4]. intros a. apply fold_name.
  - intros tree w. cbn [fold_loop]. cbv zeta. rewrite E3, !fold_join, fold_trim, fold_slashed.
    unfold one_entry, hbind. destruct (create_dir_all cwd (pjoin (map f dest) (trim_start (slashed (fp q)))) w) as (w1 & [?|?|?|]); reflexivity.
Qed.
Definition fy (y : path * hnode) : path * hnode := (fp (fst y), snd y).
Lemma fold_made file base x y : to_make file base x y -> fold_make file base x (fy y).
Proof. intros (q & n & E1 & E2 & E3 & E4 & E5 & E6). exists q, n. cbn [fst snd fy]. rewrite <- E1. ssplit; auto. Qed.

(** ** The tree *)
Lemma fold_at t p t' : at_path t p t' -> at_path (fold_tree f t) (fp p) (fold_tree f t').
Proof.
  induction 1 as [t|cs n t p t' Hin Hat IH]; [apply at_here|]. cbn [fold_tree fp map]. eapply at_child; [|exact IH].
  apply in_map_iff. exists (n, t). split; [reflexivity|exact Hin].
Qed.
Lemma fold_at_inv t' p' : forall t, at_path (fold_tree f t) p' t' -> exists p s, at_path t p s /\ p' = fp p /\ t' = fold_tree f s.
Proof.
  induction p' as [|n p' IH]; intros t H.
  - inversion H; subst. exists [], t. split; [apply at_here|split; reflexivity].
  - inversion H as [|cs ? u ? ? Hin Hat E1]; subst. destruct t as [b|cs0]; [discriminate|]. cbn [fold_tree] in E1. injection E1 as ->.
    apply in_map_iff in Hin as ([m s0] & E & Hin). cbn [fst snd] in E. injection E as <- <-. destruct (IH s0 Hat) as (p & s & A & -> & ->).
    exists (m :: p), s. split; [eapply at_child; eauto|split; reflexivity].
Qed.
Lemma fold_inj t : kept_apart f t -> forall p q a b, at_path t p a -> at_path t q b -> fp p = fp q -> p = q.
Proof.
  intros HK p. revert t HK. induction p as [|n p IH]; intros t HK q a b Ha Hb E; [destruct q; [reflexivity|discriminate]|].
  destruct q as [|m q]; [discriminate|]. cbn [fp map] in E. injection E as E1 E2. inversion Ha as [|cs ? t1 ? ? I1 A1]; subst. inversion Hb as [|? ? t2 ? ? I2 A2]; subst.
  assert (Hn : (n, t1) = (m, t2)).
  { pose proof (HK [] cs (at_here _)) as HN. cbn beta in HN. clear -I1 I2 E1 HN. induction cs as [|c cs IH]; [destruct I1|]. cbn [map] in HN. inversion HN as [|? ? N1 N2]; subst.
    destruct I1 as [->|I1], I2 as [I2|I2]; auto.
    - exfalso. apply N1. cbn [fst]. rewrite E1. apply in_map_iff. exists (m, t2). auto.
    - subst c. exfalso. apply N1. cbn [fst]. rewrite <- E1. apply in_map_iff. exists (n, t1). auto. }
  injection Hn as <- <-. f_equal. eapply (IH t1); eauto. intros r cs' Hr. apply (HK (n :: r)). eapply at_child; eauto.
Qed.
Definition fz (z : path * ftree) : path * ftree := (fp (fst z), fold_tree f (snd z)).
Lemma fold_enumerates t ns : kept_apart f t -> enumerates t ns -> enumerates (fold_tree f t) (map fz ns).
Proof.
  intros HK (HN & HE). split.
  - assert (HA : forall p s, In (p, s) ns -> at_path t p s) by (intros p s H; apply HE; exact H). clear HE. induction ns as [|[p s] ns IH]; cbn [map fst]; [constructor|].
    cbn [map fst] in HN. inversion HN as [|? ? N1 N2]; subst. constructor; [|apply IH; [exact N2|intros p' s' Hi; apply HA; right; exact Hi]].
    intros Hi. apply N1. apply in_map_iff in Hi as (z & E & Hz). apply in_map_iff in Hz as ([q s'] & <- & Hz). cbn [fz fst snd] in E.
    assert (Eq : q = p) by (eapply fold_inj; [exact HK|apply HA; right; exact Hz|apply HA; left; reflexivity|exact E]). subst q. apply in_map_iff. exists (p, s'). auto.
  - intros p' t'. split.
    + intros Hi. apply in_map_iff in Hi as ([p s] & E & Hi). cbn [fz fst snd] in E. injection E as <- <-. apply HE in Hi as (A & B). split; [destruct p; [congruence|discriminate]|apply fold_at; exact B].
    + intros (Hne & Hat). apply fold_at_inv in Hat as (p & s & A & -> & ->). apply in_map_iff. exists (p, s). split; [reflexivity|]. apply HE. split; [intros ->; apply Hne; reflexivity|exact A].
Qed.
Lemma fold_node t : as_node (fold_tree f t) = as_node t.
Proof. destruct t; reflexivity. Qed.

Lemma c164_lemma cwd file dest t w : is_image file t -> unix_tree t -> kept_apart f t -> ready_for cwd (map f dest) t w ->
  exists w', returns (fun fuel => fold_unpack f fuel cwd file dest w) (w', Ok tt) /\ restored (place cwd (map f dest)) (fold_tree f t) (w_fs w) (w_fs w').
Proof.
  intros (d & r & Ho & (v & Hv & ->) & Ht & HC) HU HK (HwL & HR & Hcwd & Hd & Hnul & HP & Hc). pose proof (image_lawful _ _ Ho) as HL. destruct (open_image_base _ _ Ho) as (base & Hb & Ed).
  apply no_nul in Hnul. destruct (unpack_list d t (v_root v) HL Ht HC) as (out & ns & (n & O) & HE & HF).
  assert (HO : parents_first out) by (eapply file_tree_order; apply (O n); lia).
  destruct (to_make_all file base d (v_root v) t out ns HU) as (ys & Y1 & Y2 & Y3); [intros p t' Hi; apply HE; exact Hi|exact HF|].
  destruct (making cwd file base (map f dest) _ _ (fold_make file base) eq_refl (fold_makes cwd file base dest) (fun t x => x = as_node t) (fold_tree f t) out (map fz ns) (map fy ys) w) as (w' & W1 & W2); auto.
  - destruct t; [discriminate|reflexivity].
  - destruct t; [discriminate|reflexivity].
  - apply fold_enumerates; auto.
  - clear -Y1. induction Y1 as [|x y out ys H _ IH]; cbn [map]; constructor; auto. apply fold_made. exact H.
  - rewrite !map_map. cbn [fy fz fst]. rewrite <- (map_map fst fp ys), <- (map_map fst fp ns), Y2. reflexivity.
  - clear -Y3 Ed. induction Y3 as [|z y ns ys (A & e & (E1 & E2) & C) Y3 IH]; cbn [map]; constructor; auto. cbn [fy fz fst snd]. split; [rewrite A; reflexivity|]. rewrite fold_node, C.
    unfold node_of. rewrite E1. destruct (snd z) as [b|cs]; [|reflexivity]. cbn [is_fdir as_node]. rewrite Ed in E2. rewrite (data_contained _ _ _ _ E2). reflexivity.
  - intros l1 y l2 q m E Ey. pose proof (made_parents _ _ _ _ HO Y1) as M. clear -E Ey M.
    assert (X : exists k1 y0 k2, ys = k1 ++ y0 :: k2 /\ l1 = map fy k1 /\ y = fy y0).
    { clear -E. revert l1 E. induction ys as [|y1 ys IH]; intros l1 E; [destruct l1; discriminate|]. destruct l1 as [|x l1]; cbn [map app] in E.
      - injection E as E1 E2. exists [], y1, ys. split; [reflexivity|split; [reflexivity|auto]].
      - injection E as E1 E2. destruct (IH l1 E2) as (k1 & y0 & k2 & -> & -> & ->). exists (y1 :: k1), y0, k2. split; [reflexivity|]. split; [cbn [map]; rewrite E1; reflexivity|reflexivity]. }
    destruct X as (k1 & y0 & k2 & -> & -> & ->). cbn [fy fst] in Ey. unfold fp in Ey.
    destruct (fst y0) as [|a p] eqn:Ep using rev_ind; [destruct q; discriminate|]. clear IHp. rewrite map_app in Ey. apply app_inj_tail in Ey as (<- & _).
    destruct (M k1 y0 k2 p a eq_refl Ep) as [->|Hi]; [left; reflexivity|right]. apply in_map_iff. exists (p, HDir). split; [reflexivity|exact Hi].
  - destruct Hc as [Hc|Hc]; [left|right; exact Hc]. destruct t as [b|[|c cs]]; [discriminate|congruence|discriminate].
  - exists w'. split; [|exact W2]. exists n. intros k Hk. unfold fold_unpack, uread, fold_directory. rewrite Hb, <- Ed, Hv. unfold uread. rewrite (O k Hk). unfold uhost. rewrite W1. reflexivity.
Qed.
End Fold.

(** ** Folding ASCII letters *)
Lemma upper_folding : folding upper.
Proof.
  intros c. rewrite <- upper_ok. unfold to_ascii_uppercase. destruct ((97 <=? c) && (c <=? 122)) eqn:E; [|tauto].
  apply andb_true_iff in E as (E1 & E2). apply N.leb_le in E1. apply N.leb_le in E2. lia.
Qed.
Lemma sorted_upper_nodup d r T : directory d r T -> NoDup (map (fun e => map upper (name_str e)) (inorder T)).
Proof.
  intros (_ & HS). unfold strictly_sorted in HS. induction HS as [|e es HS IH HF]; [constructor|]. cbn [map]. constructor; auto.
  rewrite in_map_iff. intros (e' & E & Hin). rewrite Forall_forall in HF. specialize (HF _ Hin).
  rewrite (proj2 (same_name_iff (name_str e) (name_str e')) (eq_sym E)) in HF. discriminate.
Qed.
Lemma contains_apart d t : forall r, contains d t r -> kept_apart upper t.
Proof.
  induction t as [b|cs IH] using ftree_rect'; intros r Hc; [apply every_dir_file|].
  apply contains_dir_inv in Hc as [(-> & _)|(T & es & HD & HP & HF)]; [apply every_dir_node; constructor|].
  apply every_dir_node.
  - assert (E : map (fun c => map upper (fst c)) cs = map (fun e => map upper (name_str e)) es).
    { clear -HF. induction HF as [|c e cs es (E & _) HF IH]; cbn [map]; [reflexivity|]. rewrite E, IH. reflexivity. }
    rewrite E. eapply Permutation_NoDup; [apply Permutation_map; apply Permutation_sym; exact HP|]. eapply sorted_upper_nodup; eauto.
  - clear HD HP. induction HF as [|c e cs es (E1 & E2 & E3) HF IHF]; [constructor|]. inversion IH as [|? ? I1 I2]; subst. constructor; [eapply I1; exact E3|apply IHF; exact I2].
Qed.
Lemma c164_ascii_lemma cwd file dest t w : is_image file t -> unix_tree t -> ready_for cwd (map upper dest) t w ->
  exists w', returns (fun fuel => fold_unpack upper fuel cwd file dest w) (w', Ok tt) /\ restored (place cwd (map upper dest)) (fold_tree upper t) (w_fs w) (w_fs w').
Proof.
  intros HI HU HW. apply c164_lemma; auto; [exact upper_folding|]. destruct HI as (d & r & Ho & Hr & Ht & HC). eapply contains_apart. exact HC.
Qed.
Lemma latin_folding : folding latin_fold.
Proof.
  intros c. unfold latin_fold. destruct (((97 <=? c) && (c <=? 122)) || ((224 <=? c) && (c <=? 254) && negb (c =? 247))) eqn:E; [|tauto].
  apply orb_true_iff in E as [E|E]; rewrite !andb_true_iff, !N.leb_le in E; lia.
Qed.
(** ... as on a host that distinguishes all names. *)
Lemma fold_id_loop cwd file base dest tree : forall w, fold_loop (fun c => c) cwd file base dest tree w = copyout_loop cwd file base dest tree w.
Proof.
  induction tree as [|[dir e] tree IH]; intros w; [reflexivity|]. cbn [fold_loop copyout_loop]. cbv zeta. rewrite !map_id. unfold hbind.
  destruct (create_dir_all _ _ w) as (w1 & [?|?|?|]); try reflexivity.
  match goal with |- (let '(_, _) := ?x in _) = _ => destruct x as (w2 & [?|?|?|]); try reflexivity end. apply IH.
Qed.
Lemma c164_id_lemma fuel cwd image_path file dest w : fold_unpack (fun c => c) fuel cwd file dest w = cmd_unpack fuel cwd image_path file (Some dest) w.
Proof.
  unfold fold_unpack, cmd_unpack, unpack_target, uread. destruct (offset_wrapper_new (file_dev file)) as [base| | |]; try reflexivity.
  destruct (read_volume (offset_dev (file_dev file) base)) as [v| | |]; try reflexivity. unfold fold_directory, copyout_directory, uread.
  destruct (file_tree fuel (offset_dev (file_dev file) base) (v_root v)); try reflexivity. unfold uhost. rewrite fold_id_loop. reflexivity.
Qed.
