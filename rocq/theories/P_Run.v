(** [create_xdvdfs_image] as a sequence of steps that depends only on the tree. *)
From Verif Require Import M_Base M_Util M_Layout M_Avl M_Sector M_Dirtab M_Read M_Img.
From Verif Require Import S_Avl S_Codec S_Table S_Read S_Img.
From Verif Require Import P_Base P_Codec P_Place P_Dirtab P_Table P_Find P_Map P_Tree P_Tabs P_Disk P_Plan P_Pack.
From Coq Require Import Init.Byte Permutation Sorted Lia.
Local Open Scope N_scope.

(** The regions in use: the root table, then every entry. *)
Definition regs (rs : N) (pls : list placed) : list (path * (N * N)) :=
  ([], (33, rs)) :: map (fun x => (from_base (fst x) (l_name (snd x)), (l_sector (snd x), l_size (snd x)))) (all_entries pls).

Record laid (m : build) (t : ftree) (pls : list placed) (rs : N) : Prop := {
  ld_ok : Forall (pl_ok m t) pls;
  ld_paths : Permutation (map pl_path pls) (map fst (dirs [] t));
  ld_sorted : StronglySorted path_lt (map pl_path pls);
  ld_root : exists pl0 pls', pls = pl0 :: pls' /\ pl_path pl0 = [] /\ pl_sector pl0 = 33 /\ (forall E, @dirtab_size E (pl_writer pl0) = Ok rs);
  ld_rs : 0 < rs <= 262144;
  ld_starts : map (fun r => fst (snd r)) (regs rs pls) = starts 33 (map (fun r => snd (snd r)) (regs rs pls));
  ld_total : 33 + total (map (fun r => snd (snd r)) (regs rs pls)) < u32_modulus;
  ld_from : forall pl, In pl pls -> (exists n, In (pl_path pl, (pl_sector pl, n)) (regs rs pls))
}.

Definition first_events (t : ftree) : list event :=
  map (fun d => EDiscoveredDirectory (len (snd d))) (dirs [] t) ++ [EFileCount (entries (dirs [] t)); EDirCount (len (dirs [] t))].
Definition desc_bytes (rs : N) : list byte := volume_ser (volume_new (mkRegion 33 rs)).
Definition all_steps (t : ftree) (pls : list placed) (rs : N) : list step :=
  map SReport (first_events t) ++ concat (map pl_steps pls) ++ [SWrite 65536 (desc_bytes rs)].

Lemma exec_reports {D} (W : wdev D) fs l : forall d evs, exec W fs (map SReport l) (d, evs) = ((d, evs ++ l), Ok tt).
Proof.
  induction l as [|e l IH]; intros d evs; cbn [map exec].
  - rewrite app_nil_r. reflexivity.
  - unfold pbind. cbn. rewrite IH, <- app_assoc. reflexivity.
Qed.

Lemma dirs_root t q cs : In (q, cs) (dirs [] t) <-> at_path t q (FDir cs).
Proof. rewrite dirs_at. cbn. split; [intros (r & -> & H); exact H|eauto]. Qed.

Lemma good_known m t l : proper t -> good_tabs m (rev (dirs [] t)) l ->
  all_tabs m t /\ Forall (known m t) (insert_list l []) /\ sorted (insert_list l []) /\ Permutation (insert_list l []) l
  /\ Permutation (map fst (insert_list l [])) (map fst (dirs [] t)).
Proof.
  intros HP (H1 & H2).
  assert (Hnd : NoDup (map fst l)).
  { rewrite H1, map_rev. apply NoDup_rev. apply dirs_nodup; auto. }
  assert (Hperm : Permutation (insert_list l []) l).
  { rewrite insert_list_perm; [rewrite app_nil_r; reflexivity|constructor|]. cbn. rewrite app_nil_r. exact Hnd. }
  ssplit; auto.
  - intros q cs Hat.
    assert (Hq : In q (map fst l)).
    { rewrite H1. apply in_map_iff. exists (q, cs). split; auto. apply -> in_rev. apply dirs_root; auto. }
    apply in_map_iff in Hq as ([q' w] & <- & Hin). cbn [fst] in *. destruct (H2 _ _ Hin) as (cs' & s & A & B).
    apply in_rev in A. apply dirs_root in A.
    assert (cs = cs'). { rewrite <- (cs_at_eq t _ _ HP Hat). apply (cs_at_eq t _ _ HP A). }
    subst cs'. exists w, s. exact B.
  - apply Forall_forall. intros [q w] Hin. apply (Permutation_in _ Hperm) in Hin.
    destruct (H2 _ _ Hin) as (cs' & s & A & B & _). apply in_rev in A. apply dirs_root in A.
    unfold known. cbn [fst snd]. rewrite (cs_at_eq t _ _ HP A). auto.
  - apply insert_list_sorted. constructor.
  - rewrite Hperm, H1, map_rev. symmetry. apply Permutation_rev.
Qed.

Lemma discovered_eq {D} (fs : fsys D) t : presents fs t -> 
  discovered fs (dirs [] t) = map (fun d => EDiscoveredDirectory (len (snd d))) (dirs [] t).
Proof.
  intros Hp. unfold discovered. apply map_ext_in. intros [q cs] Hin. apply dirs_root in Hin. cbn [fst snd].
  destruct (Hp q cs Hin) as (es & H1 & H2). unfold listing_at. rewrite H1. unfold len. f_equal. f_equal. eapply Forall2_length; exact H2.
Qed.

Lemma add_entry_same m tables p w e e' c : lists_as e c -> lists_as e' c -> add_entry m tables p w e = add_entry m tables p w e'.
Proof.
  intros (H1 & H2) (H3 & H4). unfold add_entry. rewrite H1, H3. destruct (snd c) as [b|cs].
  - destruct H2 as (-> & ->), H4 as (-> & ->). reflexivity.
  - rewrite H2, H4. reflexivity.
Qed.

Lemma add_entries_same m tables p es es' cs : Forall2 lists_as es cs -> Forall2 lists_as es' cs ->
  forall w, foldM (add_entry m tables p) w es = foldM (add_entry m tables p) w es'.
Proof.
  intros H. revert es'. induction H as [|e c es cs H1 H2 IH]; intros es' H' w; inversion H' as [|e' ? es2 ? H3 H4]; subst; auto.
  cbn [foldM]. rewrite (add_entry_same m tables p w e e' c) by auto. destruct (add_entry m tables p w e'); cbn [bind]; auto.
Qed.

Lemma tables_same {D D'} m (fs : fsys D) (fs' : fsys D') t : presents fs t -> presents fs' t ->
  foldM (table_step m) ([], 0) (rev (found fs (dirs [] t))) = foldM (table_step m) ([], 0) (rev (found fs' (dirs [] t))).
Proof.
  intros Hp Hp'. unfold found. rewrite <- !map_rev.
  assert (Hin : forall q cs, In (q, cs) (rev (dirs [] t)) -> at_path t q (FDir cs)).
  { intros q cs H. apply in_rev in H. apply dirs_root. exact H. }
  revert Hin. generalize (rev (dirs [] t)). generalize (@nil (path * writer), 0) as st. intros st l. revert st.
  induction l as [|[q cs] l IH]; intros st Hin; [reflexivity|]. cbn [map foldM fst].
  assert (Hs : table_step m st (q, listing_at fs q) = table_step m st (q, listing_at fs' q)).
  { destruct (Hp q cs) as (es & E1 & E2); [apply Hin; left; auto|]. destruct (Hp' q cs) as (es' & E3 & E4); [apply Hin; left; auto|].
    unfold table_step, listing_at. rewrite E1, E3. cbn [fst snd]. rewrite (add_entries_same m (fst st) q es es' cs E2 E4).
    replace (len es) with (len es'); [reflexivity|]. unfold len. f_equal. transitivity (length cs); [|symmetry]; eapply Forall2_length; eauto. }
  rewrite Hs. destruct (table_step m st (q, listing_at fs' q)) as [st'|?|?|]; cbn [bind]; auto. apply IH. intros q' cs' H'. apply Hin. right. exact H'.
Qed.

Lemma std_presents t : proper t -> presents (std_fs t) t.
Proof.
  intros HP p cs Hat. apply lookup_at in Hat; auto. exists (map entry_of cs). cbn. unfold std_read_dir. rewrite Hat. split; auto.
  clear. induction cs as [|[n s] cs IH]; constructor; auto. destruct s; split; cbn; auto.
Qed.

Lemma at_unsnoc t p n t' : at_path t (p ++ [n]) t' -> exists cs, at_path t p (FDir cs) /\ In (n, t') cs.
Proof.
  revert t. induction p as [|s p IH]; cbn; intros t H; inversion H as [|cs ? t1 ? ? Hc H1]; subst.
  - inversion H1; subst. exists cs. split; [constructor|auto].
  - destruct (IH _ H1) as (cs' & A & B). exists cs'. split; auto. econstructor; eauto.
Qed.

Lemma list_snoc {A} (l : list A) : l = [] \/ exists l' x, l = l' ++ [x].
Proof. destruct l using rev_ind; eauto. Qed.

Lemma reports_ok t l : (forall e, In e l -> e <> EFinishedPacking) -> copies_ok t (map SReport l).
Proof. intros H. apply Forall_map, Forall_forall. exact H. Qed.
Lemma first_ok t : copies_ok t (map SReport (first_events t)).
Proof.
  apply reports_ok. intros e H. unfold first_events in H. apply in_app_or in H as [H|[<-|[<-|[]]]]; try discriminate.
  apply in_map_iff in H as (? & <- & _). discriminate.
Qed.

(** A device-independent account of the run. *)
Inductive outcome (m : build) (t : ftree) : list step -> option fserr -> Prop :=
| out_ok pls rs : laid m t pls rs -> outcome m t (all_steps t pls rs) None
| out_err steps e : reason m t e -> copies_ok t steps -> Forall high steps -> outcome m t steps (Some e).

Lemma reports_high l : Forall high (map SReport l).
Proof. apply Forall_map, Forall_forall. intros e _. exact I. Qed.

Definition finish {D} (W : wdev D) (o : option fserr) : prog D unit :=
  match o with
  | None => do _ <- pad_image W; report EFinishedPacking
  | Some e => plift (Err (InvalidFileStructureError e))
  end.

Lemma head_min (l : list (path * writer)) w : StronglySorted path_lt (map fst l) -> In ([], w) l -> exists l', l = ([], w) :: l'.
Proof.
  intros Hs Hin. destruct l as [|[q w'] l]; [destruct Hin|]. destruct Hin as [[= -> ->]|Hin]; [eauto|].
  inversion Hs as [|? ? _ H]; subst. rewrite Forall_forall in H. specialize (H [] (in_map fst _ _ Hin)).
  unfold path_lt in H. destruct q; discriminate.
Qed.

Theorem pack_run m t : proper t -> small t -> is_fdir t = true ->
  exists steps o, outcome m t steps o /\
  forall D (W : wdev D) (fs : fsys D) fuel d evs, presents fs t -> (length (dirs [] t) < fuel)%nat ->
    create_xdvdfs_image fuel m W fs (d, evs) = (do _ <- exec W fs steps; finish W o) (d, evs).
Proof.
  intros HP (Hsm & Hbud) Ht.
  (* the outcome does not depend on the file system: use the host tree for the case split *)
  destruct t as [b|cs0]; [discriminate|]. set (t := FDir cs0) in *.
  assert (Hcreate : forall D (W : wdev D) (fs : fsys D) fuel d evs, presents fs t -> (length (dirs [] t) < fuel)%nat ->
     create_xdvdfs_image fuel m W fs (d, evs) =
     (do tables <- create_dirent_tables m (found fs (dirs [] t));
      do (root_path, root_dirtab) <- plift (unwrap (hd_error tables));
      do root_size <- plift (dirtab_size root_dirtab);
      do (nf, root_sector) <- plift (allocate_contiguous m allocator_default root_size);
      do _ <- add_tables m W fs tables nf [(root_path, root_sector)];
      do _ <- pwrite W (32 * SECTOR_SIZE) (volume_ser (volume_new (mkRegion root_sector root_size)));
      do _ <- pad_image W;
      report EFinishedPacking) (d, evs ++ map (fun d => EDiscoveredDirectory (len (snd d))) (dirs [] t))).
  { intros D W fs fuel d evs Hp Hf. unfold create_xdvdfs_image at 1. unfold pbind at 1.
    rewrite (dir_tree_ok fs t fuel d evs Ht Hp Hf). rewrite (discovered_eq fs t Hp). reflexivity. }
  assert (Hfound : forall D (fs : fsys D), presents fs t -> len (found fs (dirs [] t)) = len (dirs [] t)).
  { intros. unfold len, found. rewrite map_length. reflexivity. }
  pose (fs0 := std_fs t).
  assert (Hp0 : presents fs0 t) by (apply std_presents; auto).
  assert (Hsame : forall D (fs : fsys D), presents fs t ->
     foldM (table_step m) ([], 0) (rev (found fs (dirs [] t))) = foldM (table_step m) ([], 0) (rev (found fs0 (dirs [] t)))).
  { intros D fs Hp. apply tables_same; auto. }
  destruct (tables_run m fs0 t [] [] 0 HP Hsm Hp0) as [(l & Hg & Hrun)|(e & Hrun & Hre)].
  2:{ exists (map SReport (map (fun d => EDiscoveredDirectory (len (snd d))) (dirs [] t))), (Some e). split; [constructor; [exact Hre|apply reports_ok; intros e' H'; apply in_map_iff in H' as (? & <- & _); discriminate|apply reports_high]|].
      intros D W fs fuel d evs Hp Hf. rewrite (Hcreate D W fs fuel d evs Hp Hf). unfold pbind at 1. unfold create_dirent_tables, pbind at 1.
      match goal with |- context [foldM (table_step ?m0) ?a (rev (found fs ?b))] =>
        replace (foldM (table_step m0) a (rev (found fs b))) with (@Err fserr (dmap writer * N) e)
          by (symmetry; etransitivity; [exact (Hsame D fs Hp)|exact Hrun]) end. cbn [plift map_err]. unfold pbind. rewrite exec_reports. reflexivity. }
  destruct (good_known m t l HP Hg) as (Hall & Hkn & Hsort & Hperm & Hkeys).
  set (tl := insert_list l []) in *.
  destruct (Hall [] cs0 (at_here _)) as (w & rs & Hw & Hrs & Hrs0 & Hrs1 & Hrs2).
  assert (Hin0 : In ([], w) tl).
  { assert (Hi : In [] (map fst tl)).
    { eapply Permutation_in; [symmetry; exact Hkeys|]. apply (in_map fst) with (x := ([], cs0)). apply dirs_root. constructor. }
    apply in_map_iff in Hi as ([q w'] & Hq & Hi). cbn in Hq. subst q. rewrite Forall_forall in Hkn. pose proof (Hkn _ Hi) as (K1 & K2).
    cbn [fst snd] in *. rewrite (cs_at_eq t [] cs0 HP (at_here _)) in K2. assert (E : @Ok fserr _ w = Ok w') by (etransitivity; [symmetry; exact Hw|exact K2]). injection E as ->. exact Hi. }
  destruct (head_min tl w Hsort Hin0) as (tl' & Etl).
  pose proof (demand_budget m t Hall Hsm []) as Hdb. specialize (Hdb w rs Hw (Hrs _)).
  assert (Hneed : need m t tl = demand_all m (dirs [] t)).
  { apply need_demand; auto. intros q cs Hin. apply dirs_root. exact Hin. }
  assert (Hrange : 33 + sectors rs + need m t tl < u32_modulus).
  { rewrite Hneed. change (FDir cs0) with t in Hdb. lia. }
  assert (Halloc : forall E, @allocate_contiguous E m allocator_default rs = Ok (33 + sectors rs, 33)).
  { intros E. unfold allocator_default. apply allocate_spec; unfold u32_modulus in *; lia. }
  assert (Hstart : forall D (W : wdev D) (fs : fsys D) fuel d evs, presents fs t -> (length (dirs [] t) < fuel)%nat ->
     create_xdvdfs_image fuel m W fs (d, evs) =
     (do _ <- exec W fs (map SReport (first_events t)); 
      do _ <- add_tables m W fs tl (33 + sectors rs) [([], 33)];
      do _ <- pwrite W 65536 (desc_bytes rs); do _ <- pad_image W; report EFinishedPacking) (d, evs)).
  { intros D W fs fuel d evs Hp Hf. rewrite (Hcreate D W fs fuel d evs Hp Hf). 
    transitivity ((do _ <- add_tables m W fs tl (33 + sectors rs) [([], 33)];
      do _ <- pwrite W 65536 (desc_bytes rs); do _ <- pad_image W; report EFinishedPacking) (d, evs ++ first_events t)).
    2:{ symmetry. unfold pbind at 1. rewrite exec_reports. reflexivity. }
    unfold create_dirent_tables. unfold pbind at 1. unfold pbind at 1. match goal with |- context [foldM (table_step ?m0) ?a (rev (found fs ?b))] =>
        replace (foldM (table_step m0) a (rev (found fs b))) with (@Ok fserr (dmap writer * N) (insert_list l [], 0 + entries (dirs [] t)))
          by (symmetry; etransitivity; [exact (Hsame D fs Hp)|exact Hrun]) end. rewrite (Hfound D fs Hp). cbn [map_err plift].
    fold tl. rewrite N.add_0_l. unfold pbind at 1, report at 1. cbn [fst snd]. unfold pbind at 1, report at 1. cbn [fst snd].
    unfold pret at 1. rewrite Etl. cbn [hd_error unwrap]. unfold pbind at 1, plift at 1. rewrite Hrs. unfold pbind at 1, plift at 1.
    rewrite Halloc. unfold pbind at 1, plift at 1. unfold first_events. rewrite <- !app_assoc. reflexivity. }
  destruct (plan_outcome m t Hsm Hall tl (33 + sectors rs) [([], 33)]) as [(pls & P1 & P2 & P3 & P4)|(steps & e & P1 & P2 & PC & PH)]; auto.
  { lia. }
  { intros q s Hgx. cbn in Hgx. destruct (path_cmp q []); try discriminate. injection Hgx as <-. lia. }
  { intros q Hq. apply (Permutation_in _ Hkeys) in Hq. apply in_map_iff in Hq as ([q' cs] & Hq' & Hq). cbn in Hq'. subst q'.
    apply dirs_root in Hq. destruct (list_snoc q) as [->|(p & n & ->)]; [left; exists 33; reflexivity|]. right.
    apply at_unsnoc in Hq as (cs1 & Hq1 & Hq2). exists p, n, cs. ssplit; auto.
    - eapply Permutation_in; [symmetry; exact Hkeys|]. apply (in_map fst) with (x := (p, cs1)). apply dirs_root. exact Hq1.
    - rewrite (cs_at_eq t p cs1 HP Hq1). exact Hq2. }
  2:{ exists (map SReport (first_events t) ++ steps), (Some e). split; [constructor; [exact P2|apply Forall_app; split; [apply first_ok|exact PC]|apply Forall_app; split; [apply reports_high|exact PH]]|].
      intros D W fs fuel d evs Hp Hf. rewrite (Hstart D W fs fuel d evs Hp Hf).
      transitivity ((do _ <- (do _ <- exec W fs (map SReport (first_events t)); exec W fs steps); finish W (Some e)) (d, evs)).
      - rewrite pbind_assoc. apply pbind_ext. intros [] st. unfold pbind at 1. rewrite add_tables_plan, P1. cbn [fst snd].
        unfold pbind. destruct (exec W fs steps st) as [st' [[]|?|?|]]; reflexivity.
      - symmetry. apply pbind_ext_l. apply exec_app. }
  exists (all_steps t pls rs), None. split.
  - constructor. pose proof (packed_paths _ _ _ _ _ _ P1) as Hpp. pose proof (packed_sector _ _ _ _ _ _ P1) as Hps.
    assert (Hppath : map pl_path pls = map fst tl) by (rewrite <- Hpp, map_map; reflexivity).
    assert (Hregs : map (fun r => snd (snd r)) (regs rs pls) = rs :: map (fun x => l_size (snd x)) (all_entries pls)).
    { unfold regs. cbn [map snd]. rewrite map_map. reflexivity. }
    assert (H0 : exists pl0 pls', pls = pl0 :: pls' /\ pl_path pl0 = [] /\ pl_sector pl0 = 33 /\ (forall E, @dirtab_size E (pl_writer pl0) = Ok rs)).
    { rewrite Etl in P1. inversion P1 as [|? ? ? ? ? sec tb nf1 pls' ? H1 H2 H3]; subst. do 2 eexists. split; [reflexivity|]. cbn [pl_path pl_sector pl_writer].
      ssplit; auto. cbn in H1. congruence. }
    split; auto.
    + rewrite Hppath. exact Hkeys.
    + rewrite Hppath. exact Hsort.
    + destruct H0 as (pl0 & pls' & -> & E1 & E2 & E3). inversion P2 as [|? ? [A1 A2] _]; subst.
      destruct A2 as (xs & D & s & _ & _ & _ & _ & _ & B1 & B2 & _). specialize (B1 fserr). rewrite E3 in B1. injection B1 as ->. exact B2.
    + rewrite Hregs. cbn [starts]. unfold regs. cbn [map fst snd]. f_equal. rewrite map_map. cbn [fst snd]. exact P3.
    + rewrite Hregs. unfold total. cbn [fold_right]. fold (total (map (fun x => l_size (snd x)) (all_entries pls))). lia.
    + intros pl Hin. destruct (Hps pl Hin) as [Hm|(p & e & H1 & H2 & H3 & H4)].
      * cbn in Hm. destruct (path_cmp (pl_path pl) []) eqn:E; try discriminate. apply path_cmp_eq in E. injection Hm as <-. rewrite E.
        exists rs. left. reflexivity.
      * exists (l_size e). right. apply in_map_iff. exists (p, e). cbn [fst snd]. rewrite H3, H4. auto.
  - intros D W fs fuel d evs Hp Hf. rewrite (Hstart D W fs fuel d evs Hp Hf).
    assert (Epl : plan m tl (33 + sectors rs) [([], 33)] = (concat (map pl_steps pls), Ok (33 + sectors rs + need m t tl))) by (apply plan_packed; eauto).
    unfold all_steps.
    transitivity ((do _ <- (do _ <- exec W fs (map SReport (first_events t)); do _ <- exec W fs (concat (map pl_steps pls)); exec W fs [SWrite 65536 (desc_bytes rs)]); finish W None) (d, evs)).
    + rewrite pbind_assoc. apply pbind_ext. intros [] st. rewrite pbind_assoc. unfold pbind at 1. rewrite add_tables_plan, Epl. cbn [fst snd].
      cbn [exec exec_step finish]. unfold pbind, plift, pret.
      destruct (exec W fs (concat (map pl_steps pls)) st) as [st' [[]|?|?|]]; try reflexivity.
      destruct (pwrite W 65536 (desc_bytes rs) st') as [st2 [[]|?|?|]]; reflexivity.
    + symmetry. apply pbind_ext_l. eapply peq_trans; [apply exec_app|]. apply pbind_ext. intros ?. apply exec_app.
Qed.
