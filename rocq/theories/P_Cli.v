(** Proofs about the read commands. *)
From Verif Require Import M_Base M_Util M_Layout M_Dirtab M_Read M_Img M_Check M_Remap M_Cli.
From Verif Require Import S_Avl S_Codec S_Table S_Read S_Img S_Check S_Cli.
From Verif Require Import P_Base P_Codec P_Read P_Path P_Find P_Term P_Tree P_Back P_Packed P_More P_Check P_Ext P_Witness P_Map P_Tabs P_Bytes P_Layout P_Table P_Disk P_Place P_Pack P_Run P_Plan P_Image P_File.
From Coq Require Import Init.Byte Permutation Sorted Lia Strings.String DecimalN.
From Coq Require Import List.
Local Close Scope string_scope.
Local Open Scope N_scope.

(** ** Numbers and bytes as text *)
Definition dval (v : N) (s : str) : N := fold_left (fun v c => v * 10 + (c - 48)) s v.
Lemma dval_acc d p : dval (Npos p) (uint_str d) = Npos (Pos.of_uint_acc d p).
Proof.
  revert p. induction d; intros p; [reflexivity|..]; cbn [uint_str Pos.of_uint_acc]; unfold dval; cbn [fold_left];
    (match goal with |- fold_left _ _ ?a = Npos (Pos.of_uint_acc _ ?q) => replace a with (Npos q) by lia end); apply IHd.
Qed.
Lemma dval_uint d : dval 0 (uint_str d) = N.of_uint d.
Proof. induction d; [reflexivity|exact IHd|..]; exact (dval_acc d _). Qed.
Lemma unorm_head d : match Decimal.unorm d with Decimal.Nil => False | Decimal.D0 Decimal.Nil => True | Decimal.D0 _ => False | _ => True end.
Proof. unfold Decimal.unorm. induction d; cbn; auto. Qed.
Lemma decimal_shows n : shows_number n (decimal n).
Proof.
  unfold shows_number, decimal. assert (Hn : N.to_uint n = Decimal.unorm (N.to_uint n)).
  { rewrite <- DecimalN.Unsigned.to_of, DecimalN.Unsigned.of_to. reflexivity. }
  pose proof (unorm_head (N.to_uint n)) as Hh. rewrite <- Hn in Hh. split; [|split; [|split]].
  - destruct (N.to_uint n); cbn; [contradiction|discriminate..].
  - clear. induction (N.to_uint n); cbn [uint_str]; constructor; auto; lia.
  - change (dval 0 (uint_str (N.to_uint n)) = n). rewrite dval_uint. apply DecimalN.Unsigned.of_to.
  - destruct (N.to_uint n) as [|d|d|d|d|d|d|d|d|d|d]; cbn [uint_str hd]; try discriminate. destruct d; [reflexivity|contradiction..].
Qed.
Lemma hex_as_text l : hex l = hex_text l.
Proof. unfold hex, hex_text. rewrite flat_map_concat_map. f_equal. apply map_ext. intros b. destruct b; reflexivity. Qed.

(** ** Opening *)
Lemma image_lawful file d : open_image file = Ok d -> lawful d.
Proof.
  unfold open_image. destruct (offset_wrapper_new _) as [base| | |]; cbn [bind]; try discriminate. intros [= <-]. apply offset_lawful, file_lawful.
Qed.

Lemma packed_opens m t img : source t -> packs m t img ->
  exists v, read_volume (file_dev img) = Ok v /\ opens_as img (offset_dev (file_dev img) 0) (v_root v) t.
Proof.
  intros Hs Hp. destruct (packed_image_holds m t img Hs Hp) as (v & Hv & Hh).
  assert (E : forall o n, file_dev img o n = offset_dev (file_dev img) 0 o n) by (intros; unfold offset_dev; rewrite N.add_0_r; reflexivity).
  assert (Hv' : read_volume (offset_dev (file_dev img) 0) = Ok v) by (rewrite <- (read_volume_ext _ _ E); exact Hv).
  exists v. split; auto. split; [|split; [exists v; auto|split; [apply Hs|]]].
  - unfold open_image, offset_wrapper_new, XDVD_OFFSETS. cbn [probe]. rewrite Hv'. reflexivity.
  - eapply contains_ext; [exact E|]. apply holds_contains. exact Hh.
Qed.

Lemma packed_is_image m t img : source t -> packs m t img -> is_image img t.
Proof. intros Hs Hp. destruct (packed_opens m t img Hs Hp) as (v & _ & H). unfold is_image. eauto. Qed.

(** ** Lookup and listing *)
Section Contained.
Variable d : dev.
Hypothesis HLaw : lawful d.

Lemma contains_found t segs n t' : names t segs n t' -> forall r, contains d t r ->
  exists e, lookup d r segs (Ok e) /\ name_str e = n /\ is_dir e = is_fdir t' /\ contains d t' (region_of e).
Proof.
  induction 1 as [cs s n t Hin Hs|cs s n cs' segs n' t Hin Hs Hn IH]; intros r Hh; apply contains_dir_inv in Hh as [(-> & _)|(T & es & HD & HP & HF)]; try (destruct Hin; fail).
  - destruct (f2_in_l _ _ _ HF _ Hin) as (e & He & E1 & E2 & E3). cbn [fst snd] in *. exists e. ssplit; auto.
    eapply lk_found; [exact HD|eapply Permutation_in; eauto|]. rewrite E1. exact Hs.
  - destruct (f2_in_l _ _ _ HF _ Hin) as (e & He & E1 & E2 & E3). cbn [fst snd] in *.
    destruct (IH _ E3) as (e' & L & K). exists e'. split; auto.
    eapply lk_step; [exact HD|eapply Permutation_in; eauto|rewrite E1; exact Hs|inversion Hn; discriminate|exact E2|exact L].
Qed.

Lemma contains_walk cs r : contains d (FDir cs) r ->
  exists es, returns (fun fuel => walk_dirent_tree fuel d r) (Ok es) /\ Permutation (map name_str es) (map fst cs)
    /\ (r_size r = 0 /\ es = [] \/ exists T, directory d r T /\ Permutation es (inorder T)).
Proof.
  intros Hc. apply contains_dir_inv in Hc as [(-> & HZ)|(T & es & HD & HP & HF)].
  - exists []. split; [|split; auto]. exists O. intros fuel _. unfold walk_dirent_tree. rewrite (proj2 (region_empty_iff r) HZ). reflexivity.
  - exists (rpre T). split; [|split].
    + exists (S (size T)). intros fuel Hf. apply walk_tree_dir; auto.
    + rewrite rpre_perm, <- HP. rewrite (children_names _ _ _ HF). reflexivity.
    + right. exists T. split; auto. apply rpre_perm.
Qed.

Lemma contains_rows t : forall p r, is_fdir t = true -> contains d t r ->
  exists l, tree_listing d p r l /\ Permutation (map entry_row l) (rows p t).
Proof.
  induction t as [b|cs IH] using ftree_rect'; intros p r Ht Hh; [discriminate|]. apply contains_dir_inv in Hh as [(-> & HZ)|(T & es & HD & HP & HF)].
  { exists []. split; [constructor; auto|constructor]. }
  assert (G : exists ys : list (dentry * list (str * str * option N)), map fst ys = es
     /\ map snd ys = map (fun c => rows (p ++ [47] ++ fst c) (snd c)) cs
     /\ forall y, In y ys -> (is_dir (fst y) = false /\ snd y = []) \/
        (is_dir (fst y) = true /\ exists l, tree_listing d (p ++ [47] ++ name_str (fst y)) (region_of (fst y)) l /\ Permutation (map entry_row l) (snd y))).
  { clear HD HP T Ht. induction HF as [|[n t] e cs es (E1 & E2 & E3) HF IHF].
    - exists []. cbn. ssplit; auto. tauto.
    - inversion IH as [|? ? I1 I2]; subst. destruct (IHF I2) as (ys & Y1 & Y2 & Y3). cbn [fst snd] in *.
      exists ((e, rows (p ++ [47] ++ n) t) :: ys). cbn [map fst snd]. ssplit; [f_equal; auto|f_equal; auto|].
      intros y [<-|Hy]; [|auto]. cbn [fst snd]. destruct t as [b|cs'].
      + left. auto.
      + right. split; auto. rewrite E1. apply I1; auto. }
  destruct G as (ys & Y1 & Y2 & Y3).
  assert (Hrows : Permutation (map (fun e => entry_row (p, e)) es) (map (fun c => (p, fst c, row_size (snd c))) cs)).
  { clear -HF. induction HF as [|[n t] e cs es (E1 & E2 & E3) HF IHF]; cbn [map]; auto. cbn [fst snd] in *.
    replace (entry_row (p, e)) with (p, n, row_size t); [constructor; auto|]. unfold entry_row. cbn [fst snd]. rewrite E1, E2.
    destruct t as [b|cs']; cbn; auto. inversion E3; subst. congruence. }
  assert (HP' : exists ys', Permutation ys ys' /\ map fst ys' = inorder T).
  { rewrite <- Y1 in HP. symmetry in HP. destruct (Permutation_map_inv _ _ HP) as (ys' & E & Hp). exists ys'. auto. }
  destruct HP' as (ys' & Hp & E).
  assert (Y3' : forall y, In y ys' -> (is_dir (fst y) = false /\ snd y = []) \/
      (is_dir (fst y) = true /\ exists l, tree_listing d (p ++ [47] ++ name_str (fst y)) (region_of (fst y)) l /\ Permutation (map entry_row l) (snd y))).
  { intros y Hy. apply Y3. eapply Permutation_in; [symmetry; exact Hp|exact Hy]. }
  assert (G : exists l, sub_listing d p (map fst ys') l /\ Permutation (map entry_row l) (concat (map snd ys'))).
  { clear -Y3'. induction ys' as [|y ys' IH]; [exists []; split; constructor|]. destruct IH as (l & H1 & H2); [intros y' Hy'; apply Y3'; right; auto|].
    cbn [map concat]. destruct (Y3' y (or_introl eq_refl)) as [(Ed & Ef)|(Ed & l0 & H3 & H4)].
    - exists l. split; [apply sl_file; auto|]. rewrite Ef. exact H2.
    - exists (l0 ++ l). split; [eapply sl_dir; eauto|]. rewrite map_app. apply Permutation_app; auto. }
  destruct G as (l & S1 & S2). rewrite E in S1. exists (map (fun e => (p, e)) (inorder T) ++ l). split; [apply (tl_dir d p r T l); auto|].
  rewrite map_app. cbn [rows]. apply Permutation_app.
  - rewrite map_map. rewrite <- Hrows. symmetry. apply Permutation_map. exact HP.
  - rewrite S2, <- Y2. symmetry. apply perm_concat. exact Hp.
Qed.
End Contained.

Lemma say_all_eq l : say_all l = (l, Ok tt).
Proof. induction l as [|x l IH]; [reflexivity|]. cbn [say_all fold_right]. fold (say_all l). rewrite IH. reflexivity. Qed.

Lemma returns_and {A B} (f : nat -> A) (g : nat -> B) a b : returns f a -> returns g b -> exists n, forall k, (n <= k)%nat -> f k = a /\ g k = b.
Proof. intros (n & H) (k & G). exists (Nat.max n k). intros i Hi. split; [apply H|apply G]; lia. Qed.

(** ** ls *)
Lemma select_dir file d r t path cs v : opens_as file d r t -> read_volume d = Ok v -> r = v_root v -> selects_dir t path cs ->
  exists r', contains d (FDir cs) r' /\ returns (fun fuel => select_table fuel d v path) (Ok r').
Proof.
  intros (HO & _ & Ht & HC) Hv -> [(-> & ->)|(n & segs & HP & HN)].
  - exists (v_root v). split; auto. exists O. intros fuel _. reflexivity.
  - destruct (contains_found d _ _ _ _ HN _ HC) as (e & L & E1 & E2 & E3).
    exists (region_of e). split; auto. destruct (c31_lemma _ _ _ _ _ (image_lawful _ _ HO) HP L) as (k & Hk). exists k. intros fuel Hf.
    unfold select_table. replace (str_eqb path [SLASH]) with false.
    + rewrite (Hk fuel Hf). cbn [bind]. rewrite is_dir_table, E2. reflexivity.
    + symmetry. destruct (str_eqb path [SLASH]) eqn:Ep; auto. apply str_eqb_spec in Ep. subst path. exfalso.
      destruct HP as (k0 & trail & Ep & HS & Hne & Hhd & _). destruct segs as [|s segs]; [congruence|]. cbn [hd] in Hhd.
      destruct s as [|c s]; [congruence|]. inversion HS as [|? ? N1 _]; subst.
      assert (Hc : In c [SLASH]). { rewrite Ep. rewrite !in_app_iff. right. left. destruct segs; cbn; auto. }
      destruct Hc as [<-|[]]. apply N1. cbn. auto.
Qed.

Lemma c66_lemma file t path cs : is_image file t -> selects_dir t path cs ->
  exists lines, Permutation lines (map fst cs) /\ returns (fun fuel => cmd_ls fuel file path false) (lines, Ok tt).
Proof.
  intros (d & r & HO) HS. pose proof HO as (Hd & (v & Hv & Hr) & Ht & HC). destruct (select_dir _ _ _ _ _ _ v HO Hv Hr HS) as (r' & C' & R').
  destruct (contains_walk d (image_lawful _ _ Hd) cs r' C') as (es & W & P & _). exists (map name_str es). split; auto.
  destruct (returns_and _ _ _ _ R' W) as (n & Hn). exists n. intros k Hk. destruct (Hn k Hk) as (A & B).
  unfold cmd_ls. rewrite Hd. cbn [try]. rewrite Hv. cbn [try]. rewrite A. cbn [try]. rewrite B. cbn [try]. apply say_all_eq.
Qed.

(** The scanning variant, on images written by this library. *)
Lemma ls_scan_collect d fuel : forall s es, collect_scan fuel d s = Ok es -> ls_scan fuel d s = (map name_str es, Ok tt).
Proof.
  induction fuel as [|fuel IH]; intros s es; [discriminate|]. cbn [collect_scan ls_scan].
  destruct (next_entry (S fuel) d s) as [[[e|] s']| | |]; cbn [bind try fst snd]; try discriminate.
  - destruct (collect_scan fuel d s') as [es'| | |] eqn:E; cbn [bind]; try discriminate. intros [= <-]. rewrite (IH _ _ E). reflexivity.
  - intros [= <-]. reflexivity.
Qed.

Lemma names_path t segs n t' : names t segs n t' -> exists p, at_path t p t' /\ p <> [] /\ Forall2 same_name segs p.
Proof.
  induction 1 as [cs s n t Hin Hs|cs s n cs' segs n' t Hin Hs Hn (p & A & B & C)].
  - exists [n]. split; [eapply at_child; eauto; apply at_here|]. split; [discriminate|repeat constructor; auto].
  - exists (n :: p). split; [eapply at_child; eauto|]. split; [discriminate|constructor; auto].
Qed.
Lemma path_names t p t' : at_path t p t' -> p <> [] -> exists n, names t p n t'.
Proof.
  induction 1 as [|cs n t p t' Hin Hat IH]; intros Hne; [congruence|]. destruct p as [|n' p].
  - inversion Hat; subst. exists n. apply nm_last; auto. apply same_name_refl.
  - destruct (IH ltac:(discriminate)) as (n0 & Hn). destruct t as [b|cs']; [inversion Hat|]. exists n0. eapply nm_step; eauto. apply same_name_refl.
Qed.

Lemma lookup_case d r p e : lookup d r p (Ok e) -> forall segs, Forall2 same_name segs p -> lookup d r segs (Ok e).
Proof.
  intros L. remember (Ok e) as o eqn:Eo. revert e Eo.
  induction L as [| |r T s e HD HI HN| |r T s e segs o HD HI HN HS HF HK IH]; intros e0 Eo segs' HF'; try discriminate; inversion HF' as [|s' ? segs2 ? H1 H2]; subst.
  + inversion H2; subst. injection Eo as <-. eapply lk_found; eauto. eapply same_name_trans; [exact H1|exact HN].
  + eapply lk_step; eauto; [eapply same_name_trans; [exact H1|exact HN]|]. intros ->. inversion H2. congruence.
Qed.

Lemma c66_scan m t img path cs : source t -> packs m t img -> selects_dir t path cs ->
  exists lines, Permutation lines (map fst cs) /\ returns (fun fuel => cmd_ls fuel img path true) (lines, Ok tt).
Proof.
  intros Hs Hp HS. destruct (packed_opens m t img Hs Hp) as (v & Hv & HO).
  assert (E : forall o n, file_dev img o n = offset_dev (file_dev img) 0 o n) by (intros; unfold offset_dev; rewrite N.add_0_r; reflexivity).
  assert (Hv' : read_volume (offset_dev (file_dev img) 0) = Ok v) by (rewrite <- (read_volume_ext _ _ E); exact Hv).
  assert (X : exists r', returns (fun fuel => select_table fuel (offset_dev (file_dev img) 0) v path) (Ok r')
     /\ exists es ws, returns (fun fuel => scan_all fuel (file_dev img) r') (Ok es)
        /\ Permutation (map record_of es) (map record_of ws) /\ Permutation (map name_str ws) (map fst cs)).
  { destruct HS as [(-> & Et)|(n & segs & HP & HN)].
    - subst t. destruct (c18_lemma m _ img v [] cs Hs Hp Hv (at_here _)) as (r & R1 & es & ws & A & _ & B & C). exists (v_root v). split; [exists O; reflexivity|].
      destruct R1 as [(_ & ->)|(e & L & _)]; [eauto|inversion L].
    - destruct (names_path _ _ _ _ HN) as (p & Hat & Hne & HF).
      destruct (c18_lemma m _ img v p cs Hs Hp Hv Hat) as (r & R1 & es & ws & A & _ & B & C). exists r. split; [|eauto].
      destruct (select_dir _ _ _ _ path cs v HO Hv' eq_refl) as (r' & _ & R'); [right; exists n, segs; auto|].
      destruct R1 as [(-> & _)|(e & L & ->)]; [congruence|].
      assert (Hl : lawful (file_dev img)) by apply file_lawful.
      assert (r' = region_of e) as ->; [|exact R'].
      destruct (packed_image_holds m t img Hs Hp) as (v0 & V0 & Hh). rewrite Hv in V0. injection V0 as <-.
      destruct (holds_found _ _ _ _ _ HN _ Hh) as (e1 & L1 & F1 & F2 & F3).
      assert (L2 : lookup (file_dev img) (v_root v) segs (Ok e)) by (eapply lookup_case; eauto).
      pose proof (lookup_fun _ _ _ _ Hl L1 _ L2) as <-.
      destruct (c31_lemma _ _ _ _ _ Hl HP L1) as (k & Hk). destruct R' as (k' & Hk'). specialize (Hk (Nat.max k k') ltac:(lia)). specialize (Hk' (Nat.max k k') ltac:(lia)).
      unfold select_table in Hk'. destruct (str_eqb path [SLASH]) eqn:Ep.
      + exfalso. apply str_eqb_spec in Ep. subst path. destruct HP as (k0 & trail & Ep & HSl & Hne' & Hhd & _). destruct segs as [|s segs]; [congruence|]. cbn [hd] in Hhd.
        destruct s as [|c s]; [congruence|]. inversion HSl as [|? ? N1 _]; subst.
        assert (Hc : In c [SLASH]). { rewrite Ep. rewrite !in_app_iff. right. left. destruct segs; cbn; auto. }
        destruct Hc as [<-|[]]. apply N1. cbn. auto.
      + rewrite <- (walk_path_ext _ _ E), Hk in Hk'. cbn [bind] in Hk'. rewrite is_dir_table, F2 in Hk'. cbn in Hk'. injection Hk' as <-. reflexivity. }
  destruct X as (r' & R' & es & ws & A & B & C). exists (map name_str es). split.
  - rewrite <- C. apply (Permutation_map (fun x => name_str (mkDentry (fst x) (snd x) 0))) in B. rewrite !map_map in B. exact B.
  - destruct (returns_and _ _ _ _ R' A) as (n & Hn). exists n. intros k Hk. destruct (Hn k Hk) as (A' & B').
    destruct HO as (Hd & _). unfold cmd_ls. rewrite Hd. cbn [try]. rewrite Hv'. cbn [try]. rewrite A'. cbn [try].
    unfold scan_all in B'. rewrite (scan_dirent_tree_ext _ _ E) in B'. destruct (scan_dirent_tree _ r') as [s| | |]; cbn [bind try] in *; try discriminate.
    apply ls_scan_collect. rewrite <- (collect_scan_ext _ _ E). exact B'.
Qed.

(** ** tree *)
Definition sumN (l : list N) : N := fold_right N.add 0 l.
Lemma fold_sum l : forall a, fold_left N.add l a = a + sumN l.
Proof. induction l as [|x l IH]; intros a; cbn; [lia|]. rewrite IH. unfold sumN. lia. Qed.
Lemma sum_perm l l' : Permutation l l' -> sumN l = sumN l'.
Proof. unfold sumN. induction 1; cbn; lia. Qed.
Lemma sum_app l l' : sumN (l ++ l') = sumN l + sumN l'.
Proof. induction l as [|x l IH]; cbn; [reflexivity|]. unfold sumN in *. cbn. lia. Qed.
Lemma sum_concat ll : sumN (concat ll) = sumN (map sumN ll).
Proof. induction ll as [|l ll IH]; cbn; [reflexivity|]. rewrite sum_app, IH. reflexivity. Qed.

Definition row_count (x : str * str * option N) : N := match snd x with Some _ => 1 | None => 0 end.
Definition row_bytes (x : str * str * option N) : N := match snd x with Some s => s | None => 0 end.

Lemma rows_sum (f : str * str * option N -> N) (g : ftree -> N) t :
  (forall p n b, f (p, n, Some (len b)) = g (FFile b)) -> (forall p n, f (p, n, None) = 0) ->
  (forall cs, g (FDir cs) = sumN (map (fun c => g (snd c)) cs)) -> is_fdir t = true -> forall p, sumN (map f (rows p t)) = g t.
Proof.
  intros F1 F2 G. induction t as [b|cs IH] using ftree_rect'; intros Ht p; [discriminate|]. cbn [rows]. rewrite G, map_app, sum_app, concat_map, sum_concat, !map_map.
  clear Ht. induction IH as [|[n t] cs Hx IH IHl]; cbn [map]; [reflexivity|]. cbn [fst snd] in *. unfold sumN in *. cbn [fold_right]. rewrite <- IHl.
  destruct t as [b|cs']; cbn [row_size]; [rewrite F1; cbn; lia|]. rewrite F2. rewrite (Hx eq_refl). lia.
Qed.

Lemma c67_lemma file t name : is_image file t ->
  exists lines, Permutation lines (map row_line (rows [] t))
    /\ returns (fun fuel => cmd_tree fuel name file)
         (lines ++ [decimal (count_files t) ++ text " files, " ++ decimal (count_bytes t) ++ text " bytes in " ++ name], Ok tt).
Proof.
  intros (d & r & Hd & (v & Hv & ->) & Ht & HC). pose proof (image_lawful _ _ Hd) as HL.
  destruct (contains_rows d t [] (v_root v) Ht HC) as (l & L1 & L2). destruct (file_tree_lemma _ _ _ HL L1) as (out & O1 & n & Hn).
  assert (P : Permutation (map entry_row out) (rows [] t)) by (rewrite <- L2; apply Permutation_map; exact O1).
  exists (map tree_line out). split.
  - replace (map tree_line out) with (map row_line (map entry_row out)); [apply Permutation_map; exact P|]. rewrite map_map. apply map_ext. intros [p e].
    unfold entry_row, row_line, tree_line. cbn [fst snd]. rewrite is_dir_directory. destruct (is_dir e); reflexivity.
  - exists n. intros k Hk. unfold cmd_tree. rewrite Hd. cbn [try]. rewrite Hv. cbn [try]. rewrite (Hn k Hk). cbn [try]. rewrite say_all_eq, !fold_sum, !N.add_0_l.
    replace (sumN (map tree_file out)) with (count_files t); [replace (sumN (map tree_size out)) with (count_bytes t); [reflexivity|]|].
    + rewrite <- (rows_sum row_bytes count_bytes t) with (p := []); auto.
      * rewrite <- (sum_perm _ _ (Permutation_map row_bytes P)), map_map. f_equal. apply map_ext. intros [p e]. unfold row_bytes, entry_row, tree_size. cbn [fst snd].
        rewrite is_dir_directory. destruct (is_dir e); reflexivity.
      * clear. intros cs. cbn [count_bytes]. induction cs as [|c cs IH]; cbn; auto. rewrite IH. reflexivity.
    + rewrite <- (rows_sum row_count count_files t) with (p := []); auto.
      * rewrite <- (sum_perm _ _ (Permutation_map row_count P)), map_map. f_equal. apply map_ext. intros [p e]. unfold row_count, entry_row, tree_file. cbn [fst snd].
        rewrite is_dir_directory. destruct (is_dir e); reflexivity.
      * clear. intros cs. cbn [count_files]. induction cs as [|c cs IH]; cbn; auto. rewrite IH. reflexivity.
Qed.

(** ** Listings as enumerations of the tree *)
Section Nodes.
Variable d : dev.

Fixpoint nodes (t : ftree) : list (path * ftree) :=
  match t with
  | FFile _ => []
  | FDir cs => map (fun c => ([fst c], snd c)) cs ++ concat (map (fun c => map (fun x => (fst c :: fst x, snd x)) (nodes (snd c))) cs)
  end.

Definition node_ok (r : region) (p : str) (x : str * dentry) (y : path * ftree) : Prop :=
  exists q, fst y = q ++ [name_str (snd x)] /\ fst x = p ++ slashed q /\ entry_is d (snd x) (snd y) /\ lookup d r (fst y) (Ok (snd x)).
Definition fits (r : region) (p : str) (l : list (str * dentry)) (ns : list (path * ftree)) : Prop :=
  exists l', Permutation l l' /\ Forall2 (node_ok r p) l' ns.

Lemma fits_app r p l l' ns ns' : fits r p l ns -> fits r p l' ns' -> fits r p (l ++ l') (ns ++ ns').
Proof. intros (a & A1 & A2) (b & B1 & B2). exists (a ++ b). split; [apply Permutation_app; auto|apply Forall2_app; auto]. Qed.
Lemma fits_perm r p l l' ns : Permutation l l' -> fits r p l ns -> fits r p l' ns.
Proof. intros HP (a & A1 & A2). exists a. split; auto. rewrite <- HP. exact A1. Qed.
Lemma fits_perm_r r p l ns ns' : Permutation ns ns' -> fits r p l ns -> fits r p l ns'.
Proof.
  intros HP (a & A1 & A2). assert (A3 : Forall2 (fun y x => node_ok r p x y) ns a) by (clear -A2; induction A2; constructor; auto).
  destruct (Permutation_Forall2 HP A3) as (a' & P' & F'). exists a'. split; [rewrite A1; exact P'|]. clear -F'. induction F'; constructor; auto.
Qed.

Lemma contains_nodes t : forall p r, is_fdir t = true -> contains d t r -> exists l, tree_listing d p r l /\ fits r p l (nodes t).
Proof.
  induction t as [b|cs IH] using ftree_rect'; intros p r Ht Hh; [discriminate|]. apply contains_dir_inv in Hh as [(-> & HZ)|(T & es & HD & HP & HF)].
  { exists []. split; [constructor; auto|]. exists []. split; constructor. }
  assert (Hin : forall e, In e es -> In e (inorder T)) by (intros e He; eapply Permutation_in; eauto).
  assert (Htop : fits r p (map (fun e => (p, e)) (inorder T)) (map (fun c => ([fst c], snd c)) cs)).
  { exists (map (fun e => (p, e)) es). split; [apply Permutation_map, Permutation_sym; exact HP|].
    clear -HF HD Hin. induction HF as [|[n t] e cs es (E1 & E2 & E3) HF IHF]; cbn [map]; constructor.
    - cbn [fst snd] in *. exists []. cbn [app fst snd slashed map concat]. rewrite E1, app_nil_r. ssplit; auto.
      + split; auto.
      + eapply lk_found; [exact HD|apply Hin; left; auto|]. rewrite E1. apply same_name_refl.
    - apply IHF. intros e' He'. apply Hin. right. auto. }
  assert (Hsub : exists ys : list (dentry * list (path * ftree)), map fst ys = es
     /\ map snd ys = map (fun c => map (fun x => (fst c :: fst x, snd x)) (nodes (snd c))) cs
     /\ forall y, In y ys -> (is_dir (fst y) = false /\ snd y = []) \/
        (is_dir (fst y) = true /\ exists l, tree_listing d (p ++ [47] ++ name_str (fst y)) (region_of (fst y)) l /\ fits r p l (snd y))).
  { clear HP Ht Htop. induction HF as [|[n t] e cs es (E1 & E2 & E3) HF IHF].
    - exists []. cbn. ssplit; auto. tauto.
    - inversion IH as [|? ? I1 I2]; subst. destruct (IHF I2) as (ys & Y1 & Y2 & Y3); [intros e' He'; apply Hin; right; auto|]. cbn [fst snd] in *.
      exists ((e, map (fun x => (n :: fst x, snd x)) (nodes t)) :: ys). cbn [map fst snd]. ssplit; [f_equal; auto|f_equal; auto|].
      intros y [<-|Hy]; [|auto]. cbn [fst snd]. destruct t as [b|cs'].
      + left. auto.
      + right. split; auto. destruct (I1 (p ++ [47] ++ name_str e) (region_of e) eq_refl E3) as (l & L1 & l' & L2 & L3).
        exists l. split; auto. exists l'. split; auto. clear -L3 HD Hin E1 E2.
        induction L3 as [|x y l' ns (q & N1 & N2 & N3 & N4) L3 IHL]; cbn [map]; constructor; auto.
        destruct x as [px ex], y as [qy ty]. cbn [fst snd] in *. subst qy. exists (n :: q). cbn [fst snd app] in *. ssplit; auto.
        * rewrite N2, slashed_cons, E1, <- !app_assoc. reflexivity.
        * eapply lk_step; [exact HD|apply Hin; left; auto|rewrite E1; apply same_name_refl|destruct q; discriminate|exact E2|exact N4]. }
  destruct Hsub as (ys & Y1 & Y2 & Y3).
  assert (HP' : exists ys', Permutation ys ys' /\ map fst ys' = inorder T).
  { rewrite <- Y1 in HP. symmetry in HP. destruct (Permutation_map_inv _ _ HP) as (ys' & E & Hp). exists ys'. auto. }
  destruct HP' as (ys' & Hp & E).
  assert (G : exists l, sub_listing d p (map fst ys') l /\ fits r p l (concat (map snd ys'))).
  { assert (Y3' : forall y, In y ys' -> (is_dir (fst y) = false /\ snd y = []) \/
        (is_dir (fst y) = true /\ exists l, tree_listing d (p ++ [47] ++ name_str (fst y)) (region_of (fst y)) l /\ fits r p l (snd y))).
    { intros y Hy. apply Y3. eapply Permutation_in; [symmetry; exact Hp|exact Hy]. }
    clear -Y3'. induction ys' as [|y ys' IH]; [exists []; split; [constructor|exists []; split; constructor]|]. destruct IH as (l & H1 & H2); [intros y' Hy'; apply Y3'; right; auto|].
    cbn [map concat]. destruct (Y3' y (or_introl eq_refl)) as [(Ed & Ef)|(Ed & l0 & H3 & H4)].
    - exists l. split; [apply sl_file; auto|]. rewrite Ef. exact H2.
    - exists (l0 ++ l). split; [eapply sl_dir; eauto|]. apply fits_app; auto. }
  destruct G as (l & S1 & S2). rewrite E in S1. exists (map (fun e => (p, e)) (inorder T) ++ l). split; [apply (tl_dir d p r T l); auto|].
  cbn [nodes]. apply fits_app; auto. eapply fits_perm_r; [|exact S2]. rewrite <- Y2. symmetry. apply perm_concat. exact Hp.
Qed.
End Nodes.

Lemma nodes_in t : forall p t', In (p, t') (nodes t) <-> p <> [] /\ at_path t p t'.
Proof.
  induction t as [b|cs IH] using ftree_rect'; intros p t'; cbn [nodes].
  - split; [intros []|]. intros (Hne & H). inversion H; subst; congruence.
  - rewrite in_app_iff, in_concat. rewrite Forall_forall in IH. split.
    + intros [H|(l & H1 & H2)].
      * apply in_map_iff in H as ([n t] & [= <- <-] & Hin). split; [discriminate|]. eapply at_child; [exact Hin|apply at_here].
      * apply in_map_iff in H1 as ([n t] & <- & Hin). cbn [fst snd] in *. apply in_map_iff in H2 as ([q t0] & [= <- <-] & H2). cbn [fst snd] in *. split; [discriminate|].
        apply (IH _ Hin) in H2. eapply at_child; [exact Hin|apply H2].
    + intros (Hne & H). inversion H as [|? n t q ? Hin Hat]; subst; [congruence|]. destruct q as [|n' q].
      * inversion Hat; subst. left. apply in_map_iff. exists (n, t'). auto.
      * right. exists (map (fun x => (n :: fst x, snd x)) (nodes t)). split.
        -- apply in_map_iff. exists (n, t). auto.
        -- apply in_map_iff. exists (n' :: q, t'). split; auto. apply (IH _ Hin). split; [discriminate|auto].
Qed.

Lemma nodup_app {A} (l l' : list A) : NoDup l -> NoDup l' -> (forall x, In x l -> ~ In x l') -> NoDup (l ++ l').
Proof.
  induction 1 as [|x l Hx HN IH]; intros HN' HD; [exact HN'|]. cbn. constructor.
  - rewrite in_app_iff. intros [H|H]; [auto|]. apply (HD x (or_introl eq_refl) H).
  - apply IH; auto. intros y Hy. apply HD. right. auto.
Qed.

Lemma nodup_consed {A} (n : A) (l : list (list A)) : NoDup l -> NoDup (map (fun q => n :: q) l).
Proof. induction 1 as [|x l Hx Hl IH]; cbn [map]; constructor; auto. rewrite in_map_iff. intros (y & E & Hy). injection E as ->. auto. Qed.

Lemma nodes_nodup t : proper t -> NoDup (map fst (nodes t)).
Proof.
  induction t as [b|cs IH] using ftree_rect'; intros HP; cbn [nodes]; [constructor|].
  assert (Hnd : NoDup (map fst cs)) by (apply (HP [] cs); apply at_here).
  assert (Hsub : Forall (fun c : str * ftree => proper (snd c)) cs).
  { rewrite Forall_forall. intros [n t] Hin p cs' Hat. apply (HP (n :: p) cs'). eapply at_child; eauto. }
  rewrite map_app, map_map, concat_map. cbn [fst]. apply nodup_app.
  - clear -Hnd. induction cs as [|[n t] cs IHl]; cbn [map]; [constructor|]. inversion Hnd; subst. constructor; auto.
    rewrite in_map_iff. intros ([n' t'] & [= ->] & Hin). cbn [fst] in *. match goal with H : ~ In _ _ |- _ => apply H end. apply in_map_iff. exists (n, t'). auto.
  - rewrite map_map. clear HP. induction cs as [|[n t] cs IHl]; cbn [map concat]; [constructor|]. inversion Hnd; subst. inversion IH; subst. inversion Hsub; subst. cbn [fst snd] in *.
    apply nodup_app; auto.
    + rewrite map_map. cbn [fst]. rewrite <- (map_map fst (fun q => n :: q)). apply (nodup_consed n (map fst (nodes t))). auto.
    + intros q Hq Hq'. apply in_map_iff in Hq as ([q0 t0] & <- & Hq). apply in_map_iff in Hq as ([q1 t1] & [= <- <-] & Hq). cbn [fst snd] in *.
      apply in_concat in Hq' as (l & Hl & Hq'). apply in_map_iff in Hl as ([n' t'] & <- & Hin). cbn [fst snd] in *. rewrite map_map in Hq'.
      apply in_map_iff in Hq' as ([q2 t2] & [= -> ->] & _). match goal with H : ~ In n (map fst cs) |- _ => apply H end. apply in_map_iff. exists (n, t'). auto.
  - intros q Hq Hq'. apply in_map_iff in Hq as ([n t] & <- & Hin). apply in_concat in Hq' as (l & Hl & Hq'). rewrite map_map in Hl.
    apply in_map_iff in Hl as ([n' t'] & <- & Hin'). cbn [fst snd] in *. rewrite map_map in Hq'. apply in_map_iff in Hq' as ([q2 t2] & [= -> ->] & Hq2).
    apply nodes_in in Hq2 as (Hq2 & _). cbn [fst] in *. congruence.
Qed.
Lemma nodes_enumerates t : proper t -> enumerates t (nodes t).
Proof. intros HP. split; [apply nodes_nodup; auto|apply nodes_in]. Qed.

(** ** md5 *)
Lemma fits_order d r p l out ns : Permutation out l -> fits d r p l ns -> exists ns', Permutation ns ns' /\ Forall2 (node_ok d r p) out ns'.
Proof.
  intros HP (a & A1 & A2). assert (HP' : Permutation a out) by (rewrite HP, A1; reflexivity).
  destruct (Permutation_Forall2 HP' A2) as (ns' & P' & F'). exists ns'. split; auto.
Qed.

Lemma enumerates_perm t ns ns' : Permutation ns ns' -> enumerates t ns -> enumerates t ns'.
Proof.
  intros HP (A & B). split.
  - eapply Permutation_NoDup; [apply Permutation_map; exact HP|exact A].
  - intros p t'. rewrite <- B. split; intros H; [exact (Permutation_in _ (Permutation_sym HP) H)|exact (Permutation_in _ HP H)].
Qed.

Lemma md5_tree_lemma H d base (shown : path -> str) out ns :
  Forall2 (fun (x : str * dentry) (y : path * ftree) => (exists b, read_data_all d (d_dirent (e_node (snd x))) = Ok b /\ (forall b', snd y = FFile b' -> b = b'))
    /\ md5_dir base (fst x) ++ [47] ++ name_str (snd x) = shown (fst y)) out ns ->
  exists lines, md5_file_tree H d out base = (lines, Ok tt) /\ Forall2 (md5_lists H shown) lines ns.
Proof.
  induction 1 as [|[p e] [q t] out ns ((b & B1 & B2) & B3) HF (lines & L1 & L2)]; [exists []; split; [reflexivity|constructor]|]. cbn [fst snd] in *.
  exists (md5_line H b (shown q) :: lines). split.
  - cbn [md5_file_tree]. unfold md5_file_dirent. rewrite B1. cbn [bind try]. rewrite L1, hex_as_text. unfold say, md5_line. cbn [fst snd]. rewrite <- B3. reflexivity.
  - constructor; auto. unfold md5_lists. cbn [fst snd]. destruct t as [b'|cs]; [rewrite (B2 b' eq_refl); reflexivity|eauto].
Qed.

Definition tables_readable (d : dev) (root : region) : Prop :=
  forall segs e, lookup d root segs (Ok e) -> is_dir e = true -> exists b, read_data_all d (d_dirent (e_node e)) = Ok b.

Lemma lookup_app d r segs e q x : lookup d r segs (Ok e) -> is_dir e = true -> lookup d (region_of e) q x -> lookup d r (segs ++ q) x.
Proof.
  intros L Hd. remember (Ok e) as o eqn:Eo. revert e Eo Hd. induction L as [| |r T s e0 HD HI HN| |r T s e0 segs o HD HI HN HS HF HK IH]; intros e1 Eo Hd Hq; try discriminate.
  - injection Eo as ->. cbn [app]. eapply lk_step; eauto. inversion Hq; discriminate.
  - cbn [app]. eapply lk_step; eauto. destruct segs; [congruence|discriminate].
Qed.

Lemma slashed_snoc q n : slashed q ++ [47] ++ n = slashed (q ++ [n]).
Proof. rewrite slashed_app, slashed_cons. cbn [slashed map concat app]. rewrite app_nil_r. reflexivity. Qed.

Lemma md5_node d r root base (shown : path -> str) pre x y : tables_readable d root -> (forall q e, lookup d r q (Ok e) -> lookup d root (pre ++ q) (Ok e)) ->
  (forall q n, md5_dir base (slashed q) ++ [47] ++ n = shown (q ++ [n])) ->
  node_ok d r [] x y ->
  (exists b, read_data_all d (d_dirent (e_node (snd x))) = Ok b /\ (forall b', snd y = FFile b' -> b = b'))
    /\ md5_dir base (fst x) ++ [47] ++ name_str (snd x) = shown (fst y).
Proof.
  intros HT Hpre HS (q & N1 & N2 & (N3 & N4) & N5). destruct x as [p e], y as [q' t]. cbn [fst snd app] in *. subst p q'. split; [|apply HS].
  destruct t as [b|cs].
  - exists b. split; [apply (read_contained _ _ _ N4)|]. intros b' [= ->]. reflexivity.
  - destruct (HT _ _ (Hpre _ _ N5)) as (b & Hb); [exact N3|]. exists b. split; auto. discriminate.
Qed.

Lemma shown_base base : base <> [] -> forall q n, md5_dir base (slashed q) ++ [47] ++ n = below base (q ++ [n]).
Proof.
  intros Hb q n. destruct base as [|c base]; [congruence|]. destruct q as [|n0 q].
  - reflexivity.
  - cbn [md5_dir slashed map concat]. change (47 :: n0) with ([47] ++ n0). cbn [app].
    replace (below (c :: base) (n0 :: q ++ [n])) with ((c :: base) ++ [47] ++ slashed (n0 :: q ++ [n])) by (destruct q; reflexivity).
    change (n0 :: q ++ [n]) with ((n0 :: q) ++ [n]). rewrite <- slashed_snoc. cbn [app]. rewrite slashed_cons, <- !app_assoc. reflexivity.
Qed.

Lemma md5_root H file d r t : opens_as file d r t -> tables_readable d r ->
  exists ns lines, enumerates t ns /\ Forall2 (md5_lists H slashed) lines ns /\ returns (fun fuel => cmd_md5 H fuel file None) (lines, Ok tt).
Proof.
  intros (Hd & (v & Hv & ->) & Ht & HC) HT. pose proof (image_lawful _ _ Hd) as HL.
  destruct (contains_nodes d t [] (v_root v) Ht HC) as (l & L1 & L2). destruct (file_tree_lemma _ _ _ HL L1) as (out & O1 & n & Hn).
  destruct (fits_order _ _ _ _ _ _ O1 L2) as (ns & P & F). pose proof (contains_proper _ _ _ HC) as HPr.
  assert (F' := md5_tree_lemma H d [] slashed out ns).
  destruct F' as (lines & M1 & M2).
  { clear -F HT. induction F as [|x y l ns N F IH]; constructor; auto.
    apply (md5_node d (v_root v) (v_root v) [] slashed [] x y); auto.
    intros q n. cbn [md5_dir]. apply slashed_snoc. }
  exists ns, lines. split; [eapply enumerates_perm; [exact P|apply nodes_enumerates; auto]|]. split; auto.
  exists n. intros k Hk. unfold cmd_md5. rewrite Hd. cbn [try]. rewrite Hv. cbn [try]. rewrite (Hn k Hk). cbn [try]. exact M1.
Qed.

Lemma md5_path H file d r t path n t' : opens_as file d r t -> tables_readable d r -> selects t path n t' ->
  match t' with
  | FFile b => returns (fun fuel => cmd_md5 H fuel file (Some path)) ([md5_line H b path], Ok tt)
  | FDir _ => exists ns lines, enumerates t' ns /\ Forall2 (md5_lists H (below path)) lines ns /\ returns (fun fuel => cmd_md5 H fuel file (Some path)) (lines, Ok tt)
  end.
Proof.
  intros (Hd & (v & Hv & ->) & Ht & HC) HT (segs & HPa & HN). pose proof (image_lawful _ _ Hd) as HL.
  destruct (contains_found d _ _ _ _ HN _ HC) as (e & L & E1 & E2 & E3). destruct (c31_lemma _ _ _ _ _ HL HPa L) as (k0 & Hk0).
  destruct t' as [b|cs].
  - exists k0. intros k Hk. unfold cmd_md5. rewrite Hd. cbn [try]. rewrite Hv. cbn [try]. unfold md5_from_file_path. rewrite (Hk0 k Hk). cbn [try].
    rewrite is_dir_table, E2. cbn [is_fdir]. unfold md5_file_dirent. destruct (read_contained _ _ _ E3) as (_ & ->). cbn [bind]. rewrite hex_as_text. reflexivity.
  - destruct (contains_nodes d (FDir cs) [] (region_of e) eq_refl E3) as (l & L1 & L2). destruct (file_tree_lemma _ _ _ HL L1) as (out & O1 & k1 & Hk1).
    destruct (fits_order _ _ _ _ _ _ O1 L2) as (ns & P & F).
    assert (Hne : path <> []).
    { intros ->. destruct HPa as (k & trail & E & _ & Hne & Hhd & _). destruct segs as [|s segs]; [congruence|]. symmetry in E. apply app_eq_nil in E as (_ & E).
      apply app_eq_nil in E as (E & _). cbn [hd] in Hhd. destruct s; [congruence|]. destruct segs; discriminate. }
    destruct (md5_tree_lemma H d path (below path) out ns) as (lines & M1 & M2).
    { clear -F HT L E2 Hne. induction F as [|x y l ns N F IH]; constructor; auto.
      apply (md5_node d (region_of e) (v_root v) path (below path) segs x y); auto.
      - intros q e' Hq. eapply lookup_app; eauto.
      - apply shown_base. exact Hne. }
    exists ns, lines. split; [eapply enumerates_perm; [exact P|apply nodes_enumerates; eapply contains_proper; eauto]|]. split; auto.
    exists (Nat.max k0 k1). intros k Hk. unfold cmd_md5. rewrite Hd. cbn [try]. rewrite Hv. cbn [try]. unfold md5_from_file_path.
    rewrite (Hk0 k) by lia. cbn [try]. rewrite is_dir_table, E2. cbn [is_fdir]. rewrite (Hk1 k) by lia. exact M1.
Qed.

(** Images written by this library have readable tables. *)
Section Tables.
Variables (m : build) (t : ftree) (pls : list placed) (rs : N).
Hypothesis HP : proper t.
Hypothesis HL : laid m t pls rs.
Notation d := (file_dev (final t pls rs)).

Lemma table_read q cs s n : at_path t q (FDir cs) -> In (q, (s, n)) (regs rs pls) -> exists b, d (2048 * s) n = Ok b.
Proof.
  intros Hat Hr.
  destruct (pl_exists m t pls rs HL _ _ Hat) as (pl & Hpl & Eq). pose proof (pl_at m t pls rs HL pl Hpl) as Hat'. rewrite Eq in Hat'. pose proof (at_fun t HP _ _ _ Hat Hat') as Ecs. injection Ecs as Ecs.
  destruct (ld_from _ _ _ _ HL pl Hpl) as (n' & Hn'). rewrite Eq in Hn'. pose proof (reg_fun m t pls rs HP HL _ _ _ Hr Hn') as E. injection E as -> <-.
  assert (Hw : In (q, (pl_sector pl * SECTOR_SIZE, entry_table (pl_table pl))) (wl t pls)) by (apply wl_in; left; eauto).
  pose proof (ld_ok _ _ _ _ HL) as HF. rewrite Forall_forall in HF. destruct (HF _ Hpl) as [_ (xs & D & sz & F1 & F2 & F3 & F4 & F5 & F6 & F7 & F8 & F9)].
  rewrite Eq, <- Ecs in F1, F5.
  assert (Hsz : sz <= n /\ sectors n = sectors sz).
  { destruct (reg_kind m t pls rs HL _ _ _ Hr) as [(b & Hb & _)|(cs1 & w & s0 & Hb & Hw1 & Hs & Hk)].
    - pose proof (at_fun t HP _ _ _ Hat Hb). discriminate.
    - pose proof (at_fun t HP _ _ _ Hat Hb) as E. injection E as <-. rewrite F5 in Hw1. injection Hw1 as <-. rewrite F6 in Hs. injection Hs as <-.
      destruct Hk as [(-> & _)| -> ]; [lia|]. unfold pad2048. rewrite sectors_pad by lia. lia. }
  destruct Hsz as (Hsz & Hse).
  assert (Htb : entry_table (pl_table pl) <> []).
  { intros E. rewrite E in F8. rewrite (@len_nil byte) in F8. unfold sectors in F8. destruct (N.eqb_spec sz 0); lia. }
  pose proof (final_view m t pls rs HP HL _ _ _ Hw Htb) as V.
  change SECTOR_SIZE with 2048 in V. rewrite N.mul_comm in V. specialize (V 0 n). rewrite N.add_0_r in V. eexists. apply V. rewrite F8, <- Hse. unfold sectors. destruct (N.eqb_spec n 0); lia.
Qed.
End Tables.

Lemma packed_tables m t img v : source t -> packs m t img -> read_volume (file_dev img) = Ok v -> tables_readable (file_dev img) (v_root v).
Proof.
  intros Hs Hp Hv segs e L Hd. pose proof Hs as (Ht & HPr & _).
  destruct (packed_image_holds m t img Hs Hp) as (v0 & V0 & Hh). rewrite Hv in V0. injection V0 as <-.
  assert (Hne : segs <> []) by (inversion L; discriminate). destruct t as [|cs]; [discriminate|].
  destruct (find_or_missing segs Hne cs) as [(n & t' & Hn)|(x & Hm)].
  - destruct (holds_found _ _ _ _ _ Hn _ Hh) as (e1 & L1 & E1 & E2 & E3). pose proof (lookup_fun _ _ _ _ (file_lawful img) L _ L1) as <-.
    destruct (names_path _ _ _ _ Hn) as (p & Hat & Hp0 & HF).
    assert (L2 : lookup (file_dev img) (v_root v) p (Ok e)).
    { eapply lookup_case; [exact L|]. clear -HF. induction HF; constructor; auto. apply same_name_sym. auto. }
    destruct (packed_form m _ img v Hs Hp Hv) as (pls & rs & HL & Ei & Er).
    assert (Hr : region_at (file_dev (final (FDir cs) pls rs)) (mkRegion 33 rs) p (region_of e)) by (right; exists e; rewrite <- Ei, <- Er; auto).
    pose proof (region_reg m _ pls rs HPr HL _ _ _ Hat Hr) as HI. destruct t' as [|cs']; [rewrite E2 in Hd; discriminate|].
    destruct (table_read m _ pls rs HPr HL _ _ _ _ Hat HI) as (b & Hb). rewrite <- Ei in Hb.
    unfold read_data_all. fold (region_of e). destruct (N.eqb_spec (r_size (region_of e)) 0) as [Ez|Ez]; [eauto|].
    rewrite region_offset_ok by lia. cbn [bind]. rewrite N.add_0_r, Hb. exists b. reflexivity.
  - exfalso. pose proof (holds_missing _ _ _ _ Hm _ Hh) as L1.
    pose proof (lookup_lemma _ _ _ _ (file_lawful img) L) as (k & Hk). pose proof (lookup_lemma _ _ _ _ (file_lawful img) L1) as (k1 & Hk1).
    specialize (Hk (Nat.max k k1) ltac:(lia)). specialize (Hk1 (Nat.max k k1) ltac:(lia)). congruence.
Qed.

Lemma packed_readable m t img : source t -> packs m t img -> exists d r, opens_as img d r t /\ tables_readable d r.
Proof.
  intros Hs Hp. destruct (packed_opens m t img Hs Hp) as (v & Hv & HO). exists (offset_dev (file_dev img) 0), (v_root v). split; auto.
  assert (E : forall o n, offset_dev (file_dev img) 0 o n = file_dev img o n) by (intros; unfold offset_dev; rewrite N.add_0_r; reflexivity).
  intros segs e L Hd. rewrite (read_data_all_ext _ _ E). eapply packed_tables; eauto. eapply lookup_ext; eauto.
Qed.

(** ** info *)
Lemma child_bytes_small m o : o < 16384 -> child_bytes m o = Ok (child_text o).
Proof. intros H. unfold child_bytes, child_text. destruct (o =? 0); auto. destruct (N.ltb_spec (4 * o) 65536); [reflexivity|lia]. Qed.

Lemma show_attrs_text a : show_attrs a = attrs_text a.
Proof.
  unfold show_attrs, attrs_text, attr_names. cbn [map fst snd]. destruct (N.testbit a 4), (N.testbit a 0), (N.testbit a 1), (N.testbit a 2), (N.testbit a 5), (N.testbit a 7); reflexivity.
Qed.
Lemma print_dirent_small m e : d_left (e_node e) < 16384 -> d_right (e_node e) < 16384 -> print_dirent m e = (info_lines e, Ok tt).
Proof. intros H1 H2. unfold print_dirent. rewrite !child_bytes_small, show_attrs_text by assumption. reflexivity. Qed.

Lemma tree_near d r T : r_size r <= 65536 -> forall o, tree_at d r o T -> Forall (fun e => d_left (e_node e) < 16384 /\ d_right (e_node e) < 16384) (inorder T).
Proof.
  intros Hr. induction T as [|l IHl e r' IHr]; intros o; cbn [tree_at inorder]; [intros []|]. intros (A & B & C & D & E).
  assert (G : forall o t, tree_at d r o t -> o < r_size r) by (intros o0 [|? ? ?]; cbn; tauto).
  apply Forall_app. split; [|constructor].
  - destruct l; [constructor|]. destruct D as (_ & D). eapply IHl; eauto.
  - split.
    + destruct l; [rewrite D; lia|]. destruct D as (_ & D). apply G in D. lia.
    + destruct r'; [rewrite E; lia|]. destruct E as (_ & E). apply G in E. lia.
  - destruct r'; [constructor|]. destruct E as (_ & E). eapply IHr; eauto.
Qed.
Lemma dir_near d r T : r_size r <= 65536 -> directory d r T -> Forall (fun e => d_left (e_node e) < 16384 /\ d_right (e_node e) < 16384) (inorder T).
Proof. intros Hr (A & _). destruct T; [constructor|]. eapply tree_near; eauto. Qed.

Lemma print_nodes_small m es : Forall (fun e => d_left (e_node e) < 16384 /\ d_right (e_node e) < 16384) es ->
  print_nodes m es = (concat (map child_lines es), Ok tt).
Proof.
  induction 1 as [|e es (H1 & H2) HF IH]; [reflexivity|]. cbn [print_nodes map concat]. rewrite print_dirent_small by assumption. rewrite IH.
  unfold andthen, say, child_lines. cbn [fst snd app]. reflexivity.
Qed.

Lemma print_subdir_small m d r cs : lawful d -> contains d (FDir cs) r -> r_size r <= 65536 ->
  exists es, Permutation (map name_str es) (map fst cs) /\ (forall e, In e es -> stored_in d r e)
    /\ returns (fun fuel => print_subdir m fuel d r) (concat (map child_lines es), Ok tt).
Proof.
  intros HL HC Hr. destruct (contains_walk d HL cs r HC) as (es & (n & Hn) & HP & HD). exists es. split; auto.
  assert (X : Forall (fun e => d_left (e_node e) < 16384 /\ d_right (e_node e) < 16384) es /\ forall e, In e es -> stored_in d r e).
  { destruct HD as [(_ & ->)|(T & T1 & T2)]; [split; [constructor|intros ? []]|]. split.
    - rewrite Forall_forall. pose proof (dir_near d r T Hr T1) as F. rewrite Forall_forall in F. intros e He. apply F. eapply Permutation_in; eauto.
    - intros e He. apply (Permutation_in _ T2) in He. destruct T1 as (T1 & _). clear -T1 He. assert (G : exists o, tree_at d r o T) by (destruct T; [destruct He|eauto]). clear T1. destruct G as (o & G).
      revert o G. induction T as [|l IHl e0 r' IHr]; intros o; [intros []|]. cbn [inorder tree_at] in *. intros (A & B & C & D & E). apply in_app_iff in He as [He|[<-|He]].
      + destruct l; [destruct He|]. destruct D as (_ & D). eapply IHl; eauto.
      + split; auto. lia.
      + destruct r'; [destruct He|]. destruct E as (_ & E). eapply IHr; eauto. }
  destruct X as (X & Y). split; auto.
  exists n. intros k Hk. unfold print_subdir. rewrite (Hn k Hk). cbn [try]. apply print_nodes_small. exact X.
Qed.

Lemma lookup_dir d r segs e : lookup d r segs (Ok e) -> exists r' T, directory d r' T /\ In e (inorder T) /\ (r' = r \/ exists segs' e', lookup d r segs' (Ok e') /\ is_dir e' = true /\ r' = region_of e').
Proof.
  intros L. remember (Ok e) as o eqn:Eo. revert e Eo. induction L as [| |r T s e HD HI HN| |r T s e segs o HD HI HN HS HF HK IH]; intros e0 Eo; try discriminate.
  - injection Eo as <-. exists r, T. auto.
  - destruct (IH _ Eo) as (r' & T' & A & B & C). exists r', T'. split; auto. split; auto. right. destruct C as [->|(segs' & e' & C1 & C2 & C3)].
    + exists [s], e. split; auto. eapply lk_found; eauto.
    + exists (s :: segs'), e'. split; auto. eapply lk_step; eauto. inversion C1; discriminate.
Qed.

Lemma c58_lemma m file d r t path n t' : opens_as file d r t -> tables_below_64k d r -> selects t path n t' ->
  exists e segs, path_of segs path /\ lookup d r segs (Ok e) /\ name_str e = n /\ is_dir e = is_fdir t' /\
    match t' with
    | FFile _ => returns (fun fuel => cmd_info m fuel file (Some path)) (info_lines e, Ok tt)
    | FDir cs => exists es, Permutation (map name_str es) (map fst cs) /\ (forall e', In e' es -> stored_in d (region_of e) e')
                   /\ returns (fun fuel => cmd_info m fuel file (Some path)) (info_lines e ++ [[]] ++ concat (map child_lines es), Ok tt)
    end.
Proof.
  intros (Hd & (v & Hv & ->) & Ht & HC) (T1 & T2) (segs & HPa & HN). pose proof (image_lawful _ _ Hd) as HL.
  destruct (contains_found d _ _ _ _ HN _ HC) as (e & L & E1 & E2 & E3). destruct (c31_lemma _ _ _ _ _ HL HPa L) as (k0 & Hk0).
  exists e, segs. ssplit; auto.
  assert (Hne : str_eqb path [SLASH] = false).
  { destruct (str_eqb path [SLASH]) eqn:Ep; auto. apply str_eqb_spec in Ep. subst path. exfalso.
    destruct HPa as (k1 & trail & Ep & HS & Hne & Hhd & _). destruct segs as [|s segs]; [congruence|]. cbn [hd] in Hhd.
    destruct s as [|c s]; [congruence|]. inversion HS as [|? ? N1 _]; subst.
    assert (Hc : In c [SLASH]). { rewrite Ep. rewrite !in_app_iff. right. left. destruct segs; cbn; auto. }
    destruct Hc as [<-|[]]. apply N1. cbn. auto. }
  assert (Hpr : print_dirent m e = (info_lines e, Ok tt)).
  { destruct (lookup_dir _ _ _ _ L) as (r' & T & D1 & D2 & D3). assert (Hr' : r_size r' <= 65536) by (destruct D3 as [->|(s' & e' & D4 & D5 & ->)]; eauto).
    pose proof (dir_near d r' T Hr' D1) as F. rewrite Forall_forall in F. destruct (F e D2). apply print_dirent_small; auto. }
  destruct t' as [b|cs].
  - exists k0. intros k Hk. unfold cmd_info. rewrite Hd. cbn [try]. rewrite Hv. cbn [try]. rewrite Hne, (Hk0 k Hk). cbn [try].
    rewrite Hpr, is_dir_table, E2. cbn [is_fdir]. unfold andthen. cbn [fst snd done]. rewrite app_nil_r. reflexivity.
  - destruct (print_subdir_small m d (region_of e) cs HL E3) as (es & P1 & P2 & k1 & Hk1); [eapply T2; eauto|]. exists es. ssplit; auto.
    exists (Nat.max k0 k1). intros k Hk. unfold cmd_info. rewrite Hd. cbn [try]. rewrite Hv. cbn [try]. rewrite Hne, (Hk0 k) by lia. cbn [try].
    rewrite Hpr, is_dir_table, E2. cbn [is_fdir]. rewrite (Hk1 k) by lia. reflexivity.
Qed.

(** ** checksum *)
Lemma checksum_cmd H name file t : is_image file t -> plain t ->
  exists s, fingerprint t s /\ returns (fun fuel => checksum_single H fuel name file) ([hex_text (H (stream s)) ++ [9] ++ name], Ok tt).
Proof.
  intros (d & r & Hd & (v & Hv & ->) & Ht & HC) HP. destruct (c45_lemma H d v t (image_lawful _ _ Hd) Ht HP HC) as (s & S1 & n & Hn).
  exists s. split; auto. exists n. intros k Hk. unfold checksum_single. rewrite Hd. cbn [try]. rewrite Hv. cbn [try]. rewrite (Hn k Hk). cbn [try]. rewrite hex_as_text. reflexivity.
Qed.
Lemma c70_lemma H images ts : Forall2 (fun x t => is_image (snd x) t /\ plain t) images ts ->
  exists ss, Forall2 fingerprint ts ss
    /\ returns (fun fuel => cmd_checksum H fuel images) (map (fun x => hex_text (H (stream (snd x))) ++ [9] ++ fst (fst x)) (combine images ss), Ok tt).
Proof.
  induction 1 as [|[name file] t images ts (I1 & I2) HF (ss & S1 & S2)]; [exists []; split; [constructor|exists O; reflexivity]|]. cbn [snd] in I1.
  destruct (checksum_cmd H name file t I1 I2) as (s & F & R). exists (s :: ss). split; [constructor; auto|].
  destruct (returns_and _ _ _ _ R S2) as (n & Hn). exists n. intros k Hk. destruct (Hn k Hk) as (A & B). cbn [cmd_checksum combine map fst snd]. rewrite A, B. reflexivity.
Qed.

Lemma c68_root H m t img : source t -> packs m t img ->
  exists ns lines, enumerates t ns /\ Forall2 (md5_lists H slashed) lines ns /\ returns (fun fuel => cmd_md5 H fuel img None) (lines, Ok tt).
Proof. intros Hs Hp. destruct (packed_readable m t img Hs Hp) as (d & r & A & B). eapply md5_root; eauto. Qed.
Lemma c68_path H m t img path n t' : source t -> packs m t img -> selects t path n t' ->
  match t' with
  | FFile b => returns (fun fuel => cmd_md5 H fuel img (Some path)) ([md5_line H b path], Ok tt)
  | FDir _ => exists ns lines, enumerates t' ns /\ Forall2 (md5_lists H (below path)) lines ns /\ returns (fun fuel => cmd_md5 H fuel img (Some path)) (lines, Ok tt)
  end.
Proof. intros Hs Hp HS. destruct (packed_readable m t img Hs Hp) as (d & r & A & B). eapply md5_path; eauto. Qed.
