(** Allocation and placement of a whole tree. *)
From Verif Require Import M_Base M_Util M_Layout M_Avl M_Sector M_Dirtab M_Read M_Img.
From Verif Require Import S_Avl S_Codec S_Table S_Read S_Img.
From Verif Require Import P_Base P_Codec P_Place P_Dirtab P_Table P_Find P_Map P_Tree P_Tabs P_Scan P_Disk P_Plan.
From Coq Require Import Init.Byte Permutation Sorted Lia.
Local Open Scope N_scope.

(** ** Looking up host trees *)
Lemma str_eqb_refl s : str_eqb s s = true.
Proof. apply str_eqb_spec. reflexivity. Qed.

Lemma find_child cs n t : NoDup (map fst cs) -> In (n, t) cs -> find (fun c : str * ftree => str_eqb n (fst c)) cs = Some (n, t).
Proof.
  induction cs as [|[n' t'] cs IH]; cbn; intros Hn Hin; [tauto|]. inversion Hn as [|? ? H1 H2]; subst.
  destruct (str_eqb n n') eqn:E.
  - apply str_eqb_spec in E. subst n'. destruct Hin as [Hin|Hin]; [congruence|]. exfalso. apply H1. apply (in_map fst) in Hin. exact Hin.
  - destruct Hin as [[= -> ->]|Hin]; [rewrite str_eqb_refl in E; discriminate|]. auto.
Qed.

Lemma lookup_at t p t' : proper t -> (lookup_tree p t = Some t' <-> at_path t p t').
Proof.
  intros HP. split.
  - revert t HP. induction p as [|s p IH]; cbn; intros t HP H; [injection H as ->; constructor|].
    destruct t as [b|cs]; [discriminate|]. destruct (find _ cs) as [[n t0]|] eqn:E; [|discriminate].
    apply find_some in E as (E1 & E2). cbn in E2. apply str_eqb_spec in E2. subst n.
    econstructor; [exact E1|]. apply IH; auto. eapply every_dir_sub; [exact HP|]. apply (child_at _ _ _ E1).
  - intros H. induction H as [|cs n t p t' Hc H IH]; [reflexivity|]. cbn.
    rewrite (find_child cs n t); [|apply (HP [] cs); constructor|exact Hc].
    apply IH. eapply every_dir_sub; [exact HP|]. apply (child_at _ _ _ Hc).
Qed.

Definition cs_at (t : ftree) (q : path) : list (str * ftree) :=
  match lookup_tree q t with Some (FDir cs) => cs | _ => [] end.

Lemma cs_at_eq t q cs : proper t -> at_path t q (FDir cs) -> cs_at t q = cs.
Proof. intros HP H. unfold cs_at. apply lookup_at in H; auto. rewrite H. reflexivity. Qed.

(** ** Sectors *)
Definition isize (m : build) (c : str * ftree) : N := match item_of m c with Ok x => size_of x | _ => 0 end.
Definition demand (m : build) (cs : list (str * ftree)) : N := total (map (isize m) cs).

Lemma itemized_sizes m cs xs : itemized m cs xs -> map size_of xs = map (isize m) cs.
Proof. induction 1; cbn; auto. f_equal; auto. unfold isize. rewrite H. reflexivity. Qed.

Lemma total_permN a b : Permutation a b -> total a = total b.
Proof. unfold total. induction 1; cbn [fold_right]; lia. Qed.

Lemma sectors_pad s : 0 < s -> sectors ((s + 2047) / 2048 * 2048) = sectors s.
Proof. intros H. unfold sectors. destruct (N.eqb_spec s 0), (N.eqb_spec ((s + 2047) / 2048 * 2048) 0); lia. Qed.

(** All tables of the tree have been built. *)
Definition all_tabs (m : build) (t : ftree) : Prop :=
  forall q cs, at_path t q (FDir cs) -> exists w s, tab m (FDir cs) = Ok w /\ (forall E, @dirtab_size E w = Ok s)
     /\ 0 < s /\ s <= 4000000000 /\ table_size m cs s.

Lemma all_tabs_sub m t q t' : all_tabs m t -> at_path t q t' -> all_tabs m t'.
Proof. intros H H1 r cs H2. eapply H. eapply at_path_app; eauto. Qed.

Lemma tab_fits m cs w xs : all_tabs m (FDir cs) -> tab m (FDir cs) = Ok w -> itemized m cs xs -> Forall size_fits xs.
Proof.
  intros Ha Hw Hi. eapply itemized_fits; [|exact Hi]. intros n cs' Hc.
  destruct (Ha [n] cs' (child_at _ _ _ Hc)) as (w' & s & ? & ? & ? & ? & ?). eauto.
Qed.

Definition demand_all (m : build) (ds : list (path * list (str * ftree))) : N := fold_right (fun d n => demand m (snd d) + n) 0 ds.
Lemma demand_all_app m a b : demand_all m (a ++ b) = demand_all m a + demand_all m b.
Proof. unfold demand_all. induction a as [|x a IH]; cbn [app fold_right]; lia. Qed.
Lemma demand_all_perm m a b : Permutation a b -> demand_all m a = demand_all m b.
Proof. unfold demand_all. induction 1; cbn [fold_right]; lia. Qed.

Lemma demand_budget m t : all_tabs m t -> dirs_small t -> forall p,
  match t with
  | FFile b => sectors (len b) <= budget t
  | FDir cs => forall w s, tab m t = Ok w -> @dirtab_size fserr w = Ok s -> sectors s + demand_all m (dirs p t) <= budget t
  end.
Proof.
  induction t as [b|cs IH] using ftree_rect'; intros Ha Hs p; [cbn; lia|].
  intros w s Hw Hds. apply tab_ok_iff in Hw as (xs & w0 & Hi & H1 & H2).
  assert (Hf : Forall size_fits xs) by (eapply tab_fits; eauto; apply tab_ok_iff; eauto).
  destruct (built_size m xs w0 w H1 H2 Hf) as (s' & E1 & E2 & E3 & E4).
  { rewrite (itemized_len _ _ _ Hi). apply (Hs [] cs). constructor. }
  rewrite E1 in Hds. injection Hds as <-. rewrite (itemized_len _ _ _ Hi) in E4.
  cbn [budget dirs]. unfold demand_all at 1. cbn [fold_right snd]. fold (demand_all m (concat (rev (map (fun c => dirs (from_base p (fst c)) (snd c)) cs)))).
  rewrite (demand_all_perm _ _ _ (concat_rev_perm _)).
  assert (G : forall cs1, (forall c, In c cs1 -> In c cs) ->
     demand m cs1 + demand_all m (concat (map (fun c => dirs (from_base p (fst c)) (snd c)) cs1)) <= fold_right (fun c n => budget (snd c) + n) 0 cs1).
  { clear E4 E3 E2 E1. induction cs1 as [|[n t] cs1 IH1]; intros Hin; [cbn; lia|]. cbn [map concat fold_right fst snd].
    rewrite demand_all_app. unfold demand, total in *. cbn [map fold_right].
    assert (Hc : In (n, t) cs) by (apply Hin; left; auto).
    specialize (IH1 (fun c Hc' => Hin c (or_intror Hc'))). rewrite Forall_forall in IH. specialize (IH _ Hc). cbn [snd] in IH.
    specialize (IH (all_tabs_sub _ _ _ _ Ha (child_at _ _ _ Hc)) (every_dir_sub _ _ _ _ Hs (child_at _ _ _ Hc)) (from_base p n)).
    assert (Hx : exists x, In x xs /\ item_of m (n, t) = Ok x).
    { clear -Hi Hc. induction Hi as [|c x cs xs Hx Hi IH]; [destruct Hc|]. destruct Hc as [->|Hc]; [exists x; cbn; auto|].
      destruct (IH Hc) as (y & ? & ?). exists y. cbn; auto. }
    destruct Hx as (x & _ & Hx). unfold isize at 1. rewrite Hx. unfold item_of in Hx. cbn [fst snd] in Hx. destruct t as [b|cs'].
    - apply bind_ok in Hx as (s0 & Hs0 & [= <-]). rewrite try_into_spec in Hs0. destruct (len b <? u32_modulus); [|discriminate]. injection Hs0 as <-.
      cbn [dirs]. change (demand_all m []) with 0. unfold size_of. cbn [i_dir i_size]. lia.
    - apply bind_ok in Hx as (w' & Hw' & Hx). apply bind_ok in Hx as (s0 & Hs0 & [= <-]). specialize (IH _ _ Hw' Hs0).
      assert (Hpos : 0 < s0).
      { destruct (Ha [n] cs' (child_at _ _ _ Hc)) as (w'' & s'' & A1 & A2 & A3 & _). rewrite A1 in Hw'. injection Hw' as ->.
        rewrite A2 in Hs0. injection Hs0 as ->. exact A3. }
      unfold size_of. cbn [i_dir i_size]. rewrite (sectors_pad _ Hpos). lia. }
  specialize (G cs (fun c Hc => Hc)). lia.
Qed.

(** ** Placing all tables *)
Section Placing.
Variables (m : build) (t : ftree).
Hypothesis HP : proper t.
Hypothesis Hsm : dirs_small t.
Hypothesis Hall : all_tabs m t.

Definition known (x : path * writer) : Prop := at_path t (fst x) (FDir (cs_at t (fst x))) /\ tab m (FDir (cs_at t (fst x))) = Ok (snd x).
Definition need (tl : list (path * writer)) : N := fold_right (fun x n => demand m (cs_at t (fst x)) + n) 0 tl.

Lemma known_range q w nf : known (q, w) -> nf + demand m (cs_at t q) < u32_modulus ->
  exists xs w0, itemized m (cs_at t q) xs /\ add_items m xs = Ok w0 /\ compute_size m w0 = Ok w /\ in_range nf xs
    /\ total (map size_of xs) = demand m (cs_at t q).
Proof.
  intros (H1 & H2) Hn. cbn [fst snd] in *. pose proof H2 as H2'. apply tab_ok_iff in H2 as (xs & w0 & Hi & Ha & Hc).
  exists xs, w0. pose proof (itemized_sizes _ _ _ Hi) as Hz. ssplit; auto.
  - assert (Hl : len xs <= 7000000) by (rewrite (itemized_len _ _ _ Hi); apply (Hsm q); exact H1).
    unfold in_range. ssplit.
    + eapply tab_fits; eauto. eapply all_tabs_sub; eauto.
    + unfold u32_modulus. lia.
    + rewrite Hz. exact Hn.
  - rewrite Hz. reflexivity.
Qed.

Record pl_ok (pl : placed) : Prop := {
  po_at : at_path t (pl_path pl) (FDir (cs_at t (pl_path pl)));
  po_facts : exists xs D s,
    itemized m (cs_at t (pl_path pl)) xs /\ Permutation (map p_item (inorder D)) xs /\ distinct xs
    /\ file_listing (pl_table pl) = map lst (preorder D)
    /\ tab m (FDir (cs_at t (pl_path pl))) = Ok (pl_writer pl)
    /\ (forall E, @dirtab_size E (pl_writer pl) = Ok s) /\ 0 < s <= 262144 /\ len (entry_table (pl_table pl)) = 2048 * sectors s
    /\ (forall d sec sz, view d (2048 * sec) (entry_table (pl_table pl)) -> s <= sz ->
          exists T, directory d (mkRegion sec sz) T /\ Forall2 (ent_rel sec) (inorder D) (inorder T)
                 /\ Forall2 (ent_rel sec) (preorder D) (preorder T)
                 /\ (lawful d -> sectors sz = sectors s -> returns (fun fuel => scan_all fuel d (mkRegion sec sz)) (Ok (map in_sector (preorder T))))
                 /\ balanced T /\ 16 * len (inorder T) <= s)
}.

(** Every write lies above the volume descriptor. *)
Definition high (s : step) : Prop :=
  match s with SReport _ => True | SWrite off _ => 67584 <= off | SCopy _ off _ => 67584 <= off end.

Lemma starts_ge sizes : forall n s, In s (starts n sizes) -> n <= s.
Proof.
  induction sizes as [|z sizes IH]; intros n s; cbn [starts]; intros H; [destruct H|].
  destruct (N.eqb_spec z 0) as [->|Hz]; cbn in H.
  - destruct H as [<-|H]; [lia|]. apply IH in H. lia.
  - destruct H as [<-|H]; [lia|]. apply IH in H. lia.
Qed.

Lemma plan_listing_high p nf listing : 33 <= nf -> (forall e, In e listing -> nf <= l_sector e) -> forall secs,
  (forall q s, map_get q secs = Some s -> 33 <= s) ->
  Forall high (fst (plan_listing p listing secs)) /\ (forall q s, map_get q (snd (plan_listing p listing secs)) = Some s -> 33 <= s).
Proof.
  intros Hnf. induction listing as [|e listing IH]; intros Hl secs Hs; cbn [plan_listing fst snd].
  - split; [constructor|exact Hs].
  - cbv zeta. assert (He : nf <= l_sector e) by (apply Hl; left; auto).
    assert (Hl' : forall e', In e' listing -> nf <= l_sector e') by (intros e' H'; apply Hl; right; auto).
    destruct (l_is_dir e) eqn:Ed.
    + specialize (IH Hl' (map_insert (from_base p (l_name e)) (l_sector e) secs)).
      destruct (plan_listing p listing _) as [ls r]. cbn [fst snd] in *. destruct IH as (I1 & I2).
      * intros q s. destruct (path_eq_dec q (from_base p (l_name e))) as [->|Hne].
        -- rewrite get_insert_same. intros [= <-]. lia.
        -- rewrite get_insert_other by auto. apply Hs.
      * split; auto. constructor; [exact I|exact I1].
    + specialize (IH Hl' secs Hs). destruct (plan_listing p listing secs) as [ls r]. cbn [fst snd] in *. destruct IH as (I1 & I2).
      split; auto. constructor; [exact I|]. constructor; [|exact I1]. cbn [high]. unfold SECTOR_SIZE. lia.
Qed.

Lemma plan_outcome tl : forall nf secs,
  Forall known tl -> nf + need tl < u32_modulus -> StronglySorted path_lt (map fst tl) ->
  33 <= nf -> (forall q s, map_get q secs = Some s -> 33 <= s) ->
  (forall q, In q (map fst tl) -> (exists s, map_get q secs = Some s) \/
      exists p n cs', q = from_base p n /\ In p (map fst tl) /\ In (n, FDir cs') (cs_at t p)) ->
  (exists pls, packed m tl nf secs pls (nf + need tl) /\ Forall pl_ok pls
     /\ map (fun x => l_sector (snd x)) (all_entries pls) = starts nf (map (fun x => l_size (snd x)) (all_entries pls))
     /\ need tl = total (map (fun x => l_size (snd x)) (all_entries pls)))
  \/ (exists steps e, plan m tl nf secs = (steps, Err (InvalidFileStructureError e)) /\ reason m t e /\ copies_ok t steps /\ Forall high steps).
Proof.
  induction tl as [|[q w] tl IH]; intros nf secs HK Hn Hsort Hnf33 Hsecs Hkey.
  - left. exists []. cbn [need fold_right]. rewrite N.add_0_r. ssplit; constructor.
  - inversion HK as [|? ? Hk HK']; subst. unfold need in Hn |- *. cbn [fold_right fst] in Hn |- *. fold (need tl) in Hn |- *.
    cbn [map fst] in *. inversion Hsort as [|? ? Hs1 Hs2]; subst. rewrite Forall_forall in Hs2.
    assert (Hq : exists sec, map_get q secs = Some sec).
    { destruct (Hkey q (or_introl eq_refl)) as [H|(p & n & cs' & Eq & [Hp|Hp] & _)]; auto; exfalso.
      - pose proof (path_cmp_parent p n) as X. rewrite <- Eq, Hp, path_cmp_refl in X. discriminate.
      - pose proof (Hs2 p Hp) as X. pose proof (path_cmp_parent p n) as Y. rewrite <- Eq in Y.
        pose proof (path_cmp_trans _ _ _ X Y) as Z. rewrite path_cmp_refl in Z. discriminate. }
    destruct Hq as (sec & Hsec).
    destruct (known_range q w nf Hk) as (xs & w0 & Hi & Ha & Hc & Hr & Htot); [lia|].
    destruct (disk_repr_total m xs w0 w nf Ha Hc Hr) as (s & Hs & Hok & Hbad).
    destruct (N.le_gt_cases s 262144) as [Hle|Hgt].
    + destruct (Hok Hle) as (tb & nf1 & Hd).
      destruct (table_facts m xs w0 w nf tb nf1 Ha Hc Hd Hr) as (D & s' & F1 & F2 & F3 & F4 & F5 & F6 & F7 & F8 & F9).
      assert (Enf : nf1 = nf + demand m (cs_at t q)) by lia.
      assert (Hents : forall n cs', In (n, FDir cs') (cs_at t q) -> exists e, In e (file_listing tb) /\ l_is_dir e = true /\ l_name e = n).
      { intros n cs' Hin. assert (Hx : exists x, In x xs /\ item_of m (n, FDir cs') = Ok x).
        { clear -Hi Hin. induction Hi as [|c x cs xs Hx Hi IH]; [destruct Hin|]. destruct Hin as [->|Hc]; [exists x; cbn; auto|].
          destruct (IH Hc) as (y & ? & ?). exists y. cbn; auto. }
        destruct Hx as (x & Hx & Hix). assert (Hx' : In x (map p_item (preorder D))).
        { eapply Permutation_in; [|exact Hx]. rewrite <- F1. symmetry. apply Permutation_map, preorder_perm. }
        apply in_map_iff in Hx' as (e & <- & He). exists (lst e). rewrite F3. split; [apply in_map; exact He|].
        pose proof (item_name _ _ _ Hix) as Hnm. unfold item_of in Hix. cbn [snd fst] in *.
        apply bind_ok in Hix as (w' & _ & Hix). apply bind_ok in Hix as (s1 & _ & Hix). injection Hix as Hix. split.
        - unfold lst. cbn [l_is_dir]. rewrite <- Hix. reflexivity.
        - exact Hnm. }
      assert (Hhigh : Forall high (fst (plan_listing q (file_listing tb) secs))
                   /\ (forall q0 s0, map_get q0 (snd (plan_listing q (file_listing tb) secs)) = Some s0 -> 33 <= s0)).
      { apply (plan_listing_high q nf); auto. intros e He. rewrite F3 in He. apply in_map_iff in He as (pe & <- & Hpe).
        cbn [lst l_sector]. apply (in_map p_sector) in Hpe. rewrite F4 in Hpe. apply starts_ge in Hpe. exact Hpe. }
      destruct Hhigh as (HG1 & HG2).
      destruct (IH nf1 (snd (plan_listing q (file_listing tb) secs)) HK') as [(pls & P1 & P2 & P3 & P4)|(steps & e & P1 & P2 & PC & PH)].
      * lia.
      * exact Hs1.
      * lia.
      * exact HG2.
      * intros q' Hq'. destruct (Hkey q' (or_intror Hq')) as [(s1 & Hg)|(p & n & cs' & Eq & [Hp|Hp] & Hin)].
        -- left. apply plan_listing_has. eauto.
        -- left. apply plan_listing_has. right. subst p. destruct (Hents _ _ Hin) as (e & E1 & E2 & E3). exists e. rewrite E3. auto.
        -- right. eauto 10.
      * left. exists (mkPlaced q w sec nf tb :: pls).
        assert (Hlst : map (fun x => l_sector (snd x)) (pl_entries (mkPlaced q w sec nf tb)) = starts nf (map (fun x => l_size (snd x)) (pl_entries (mkPlaced q w sec nf tb)))).
        { unfold pl_entries. cbn [pl_path pl_table]. rewrite F3, !map_map. cbn [snd]. rewrite map_map in F4. exact F4. }
        assert (Hsz : demand m (cs_at t q) = total (map (fun x => l_size (snd x)) (pl_entries (mkPlaced q w sec nf tb)))).
        { unfold pl_entries. cbn [pl_path pl_table]. rewrite F3, !map_map. cbn [snd]. rewrite <- Htot.
          apply total_permN. rewrite <- F1, map_map. apply Permutation_map. symmetry. apply preorder_perm. }
        ssplit.
        -- econstructor; [exact Hsec|exact Hd|]. rewrite Enf in P1 at 2. replace (nf + (demand m (cs_at t q) + need tl)) with (nf + demand m (cs_at t q) + need tl) by lia. exact P1.
        -- constructor; auto. split; cbn [pl_path pl_table pl_writer]; [apply Hk|]. exists xs, D, s'. destruct F7. ssplit; auto. apply Hk.
        -- unfold all_entries. cbn [map concat]. rewrite !map_app, starts_app. f_equal; [exact Hlst|].
           rewrite <- Hsz, <- Enf. exact P3.
        -- unfold all_entries. cbn [map concat]. rewrite map_app, total_app. rewrite <- Hsz. fold (all_entries pls). lia.
      * right. cbn [plan]. rewrite Hsec, Hd. pose proof (plan_listing_copies q (file_listing tb) secs) as HC.
        destruct (plan_listing q (file_listing tb) secs) as [ls secs']. cbn [fst snd] in P1, HC, HG1.
        rewrite P1. exists (SReport (EDirAdded q sec) :: SWrite (sec * SECTOR_SIZE) (entry_table tb) :: ls ++ steps), e. ssplit; auto.
        2:{ constructor; [exact I|]. constructor; [|apply Forall_app; auto]. cbn [high]. specialize (Hsecs _ _ Hsec). unfold SECTOR_SIZE. lia. }
        constructor; [discriminate|]. constructor; [exact I|]. apply Forall_app. split; [|exact PC]. apply Forall_forall. intros st Hst.
        destruct (HC _ Hst) as (le & L1 & [-> |(L2 & ->)]); [discriminate|]. rewrite F3 in L1. apply in_map_iff in L1 as (pe & <- & Hpe). cbn [step_ok].
        assert (Hx : In (p_item pe) xs).
        { eapply Permutation_in; [exact F1|]. apply in_map. eapply Permutation_in; [apply preorder_perm|exact Hpe]. }
        destruct (itemized_in _ _ _ _ Hi Hx) as ([n' s1] & Hc1 & Hi1). pose proof (item_name _ _ _ Hi1) as Hnm. cbn [fst] in Hnm.
        unfold item_of in Hi1. cbn [fst snd] in Hi1. cbn [lst l_is_dir l_name l_size] in *. destruct s1 as [b|cs1].
        -- apply bind_ok in Hi1 as (s2 & Hti & Hi1). rewrite try_into_spec in Hti. destruct (len b <? u32_modulus); [|discriminate].
           injection Hti as <-. exists b. rewrite Hnm. split; [|injection Hi1 as <-; reflexivity].
           eapply at_path_snoc; [apply Hk|exact Hc1].
        -- apply bind_ok in Hi1 as (? & _ & Hi1). apply bind_ok in Hi1 as (? & _ & Hi1). injection Hi1 as Hi1. rewrite <- Hi1 in L2. discriminate.
    + right. cbn [plan]. rewrite Hsec, (Hbad Hgt). exists [], TooManyDirectoryEntries. split; [reflexivity|]. split; [|split; apply Forall_nil].
      cbn. exists q, (cs_at t q), s. ssplit; auto; [apply Hk|]. exists xs, w0, w. ssplit; auto. eapply itemized_names; eauto.
Qed.

Lemma need_demand tl ds : Permutation (map fst tl) (map fst ds) -> (forall q cs, In (q, cs) ds -> at_path t q (FDir cs)) ->
  need tl = demand_all m ds.
Proof.
  intros Hp Hat.
  assert (H1 : need tl = fold_right (fun q n => demand m (cs_at t q) + n) 0 (map fst tl)).
  { unfold need. clear. induction tl as [|x tl IH]; cbn [fold_right map]; lia. }
  assert (H2 : demand_all m ds = fold_right (fun q n => demand m (cs_at t q) + n) 0 (map fst ds)).
  { unfold demand_all. clear Hp H1. induction ds as [|[q cs] ds IH]; cbn [fold_right map fst snd]; auto.
    rewrite IH by (intros q' cs' Hin; apply Hat; right; auto). rewrite (cs_at_eq t q cs HP (Hat q cs (or_introl eq_refl))). reflexivity. }
  rewrite H1, H2. clear -Hp. induction Hp; cbn [fold_right]; lia.
Qed.
End Placing.
