(** [create_dirent_tables] on the listings of a tree. *)
From Verif Require Import M_Base M_Util M_Layout M_Avl M_Sector M_Dirtab M_Read M_Img.
From Verif Require Import S_Avl S_Codec S_Table S_Read S_Img.
From Verif Require Import P_Base P_Codec P_Place P_Dirtab P_Table P_Find P_Map P_Tree.
From Coq Require Import Init.Byte Permutation Sorted Lia.
Local Open Scope N_scope.

(** The table that the writer builds for a directory. *)
Fixpoint tab (m : build) (t : ftree) : res fserr writer :=
  match t with
  | FFile _ => Ok writer_default
  | FDir cs =>
      let* xs := mapM (fun r => r) (map (fun c =>
        match snd c with
        | FFile b => let* s := try_into u32_modulus FileTooLarge (len b) in Ok (mkItem (fst c) s false)
        | FDir _ => let* w := tab m (snd c) in let* s := dirtab_size w in Ok (mkItem (fst c) s true)
        end) cs) in
      let* w := add_items m xs in
      compute_size m w
  end.

Definition item_of (m : build) (c : str * ftree) : res fserr item :=
  match snd c with
  | FFile b => let* s := try_into u32_modulus FileTooLarge (len b) in Ok (mkItem (fst c) s false)
  | FDir _ => let* w := tab m (snd c) in let* s := dirtab_size w in Ok (mkItem (fst c) s true)
  end.

Definition itemized (m : build) (cs : list (str * ftree)) (xs : list item) : Prop :=
  Forall2 (fun c x => item_of m c = Ok x) cs xs.

Lemma mapM_id_ok {E A B} (f : A -> res E B) l ys : mapM (fun r => r) (map f l) = Ok ys <-> Forall2 (fun x y => f x = Ok y) l ys.
Proof.
  revert ys. induction l as [|x l IH]; intros ys; cbn.
  - split; [intros [= <-]; constructor|]. intros H; inversion H; reflexivity.
  - split.
    + destruct (f x) as [y| | |] eqn:Ex; cbn; try discriminate. destruct (mapM _ (map f l)) as [ys'| | |] eqn:El; cbn; try discriminate.
      intros [= <-]. constructor; auto. apply IH. reflexivity.
    + intros H; inversion H as [|? y ? ys' H1 H2]; subst. rewrite H1. cbn. apply IH in H2. rewrite H2. reflexivity.
Qed.

Lemma tab_ok_iff m cs w : tab m (FDir cs) = Ok w <-> exists xs w0, itemized m cs xs /\ add_items m xs = Ok w0 /\ compute_size m w0 = Ok w.
Proof.
  change (tab m (FDir cs)) with (let* xs := mapM (fun r => r) (map (item_of m) cs) in let* w := add_items m xs in compute_size m w).
  split.
  - intros H. apply bind_ok in H as (xs & H1 & H). apply bind_ok in H as (w0 & H2 & H). apply mapM_id_ok in H1. exists xs, w0. auto.
  - intros (xs & w0 & H1 & H2 & H3). apply mapM_id_ok in H1. rewrite H1. cbn [bind]. rewrite H2. exact H3.
Qed.

Lemma item_name m c x : item_of m c = Ok x -> i_name x = fst c.
Proof.
  unfold item_of. destruct (snd c) as [b|cs]; intros H.
  - apply bind_ok in H as (s & _ & [= <-]). reflexivity.
  - apply bind_ok in H as (w & _ & H). apply bind_ok in H as (s & _ & [= <-]). reflexivity.
Qed.

Lemma itemized_names m cs xs : itemized m cs xs -> map i_name xs = map fst cs.
Proof. induction 1; cbn; auto. f_equal; auto. eapply item_name; eauto. Qed.

Lemma try_into_spec {E} M (e : E) x : try_into M e x = if x <? M then Ok x else Err e.
Proof. unfold try_into. reflexivity. Qed.

(** Sizes of built tables. *)
Lemma built_size m xs w w' : add_items m xs = Ok w -> compute_size m w = Ok w' -> Forall size_fits xs -> len xs <= 7000000 ->
  exists s, (forall E, @dirtab_size E w' = Ok s) /\ 0 < s /\ s <= 2048 + 544 * len xs /\ sectors s <= 1 + len xs.
Proof.
  intros H1 H2 H3 H4. destruct (built_table m xs w w' H1 H2 H3) as (d & o & HR & HP & HS & HL & Hw & HE & HD & _); [unfold u32_modulus; lia|].
  assert (HE' : Forall plen_ok (map ilen (preorder d))).
  { apply Forall_map. eapply Forall_impl; [intros a; apply ilen_ok|]. eapply Permutation_Forall; [|exact HE].
    rewrite <- HP. symmetry. apply preorder_perm. }
  assert (Hl : len (map ilen (preorder d)) = len xs).
  { unfold len. rewrite map_length, (Permutation_length (preorder_perm d)), (Permutation_length HP). reflexivity. }
  pose proof (pend_bound 0 _ HE') as Hb. rewrite Hl in Hb.
  eexists. split; [intros E; apply (dirtab_size_spec xs w w' d HR Hw)|].
  destruct xs as [|x xs].
  - vm_compute. repeat split; discriminate.
  - assert (Hp : 0 < pend 0 (map ilen (preorder d))).
    { destruct (map ilen (preorder d)) as [|l ls] eqn:El; [unfold len in Hl; cbn in Hl; lia|].
      cbn. inversion HE' as [|? ? Hok ?]; subst. pose proof (pend_ge (anext 0 l + l) ls). unfold plen_ok in Hok. lia. }
    split; [exact Hp|]. split; [lia|]. unfold sectors. destruct (N.eqb_spec (pend 0 (map ilen (preorder d))) 0); lia.
Qed.

Definition dirs_small (t : ftree) : Prop := every_dir (fun cs => len cs <= 7000000) t.

Lemma itemized_fits m cs xs : (forall n cs', In (n, FDir cs') cs -> exists w s, tab m (FDir cs') = Ok w /\ (forall E, @dirtab_size E w = Ok s) /\ s <= 4000000000) ->
  itemized m cs xs -> Forall size_fits xs.
Proof.
  intros H. induction 1 as [|[n t] x cs xs H1 H2 IH]; constructor.
  - unfold item_of in H1. cbn [snd fst] in H1. destruct t as [b|cs'].
    + rewrite try_into_spec in H1. destruct (N.ltb_spec (len b) u32_modulus); cbn in H1; [|discriminate]. injection H1 as <-.
      split; assumption.
    + destruct (H n cs') as (w & s & E1 & E2 & E3); [left; reflexivity|]. rewrite E1 in H1. cbn [bind] in H1. rewrite E2 in H1. injection H1 as <-.
      unfold size_fits, size_of, u32_modulus. cbn [i_dir i_size]. lia.
  - apply IH. intros n' cs' Hc. apply (H n'). right. exact Hc.
Qed.

Lemma itemized_in m cs xs x : itemized m cs xs -> In x xs -> exists c, In c cs /\ item_of m c = Ok x.
Proof. induction 1; cbn; [tauto|]. intros [<-|Hx]; [eauto|]. destruct (IHForall2 Hx) as (c & ? & ?). eauto. Qed.

Lemma itemized_len m cs xs : itemized m cs xs -> len xs = len cs.
Proof. intros H. unfold len. f_equal. symmetry. eapply Forall2_length; exact H. Qed.

(** Not distinct up to case, but distinct. *)
Lemma not_distinct xs : NoDup (map i_name xs) -> ~ distinct xs ->
  exists n1 n2, In n1 (map i_name xs) /\ In n2 (map i_name xs) /\ n1 <> n2 /\ same_name n1 n2.
Proof.
  induction xs as [|x xs IH]; cbn; intros Hn Hd; [tauto|]. inversion Hn as [|? ? H1 H2]; subst.
  destruct (existsb (fun y => match item_cmp x y with Eq => true | _ => false end) xs) eqn:E.
  - apply existsb_exists in E as (y & Hy & E). exists (i_name x), (i_name y).
    assert (Hin : In (i_name y) (map i_name xs)) by (apply in_map; exact Hy).
    ssplit; auto.
    + intros Hxy. apply H1. rewrite Hxy. exact Hin.
    + apply same_name_iff. unfold item_cmp in E. destruct (cmp_ignore_case_utf8 _ _); auto; discriminate.
  - destruct IH as (n1 & n2 & ? & ? & ? & ?); auto.
    + intros Hd'. apply Hd. split; auto. intros y Hy Hc. apply Bool.not_true_iff_false in E. apply E. apply existsb_exists.
      exists y. split; auto. rewrite Hc. reflexivity.
    + exists n1, n2. auto.
Qed.

Lemma reason_sub m t p t' e : at_path t p t' -> reason m t' e -> reason m t e.
Proof.
  assert (Hin : forall n s, at_path t p t' -> entry_in t' n s -> entry_in t n s).
  { intros n s H (q & cs & H1 & H2). exists (p ++ q), cs. split; auto. eapply at_path_app; eauto. }
  intros H. destruct e; cbn.
  - intros (n & s & c & H1 & H2). exists n, s, c. auto.
  - intros (n & s & H1 & H2). exists n, s. auto.
  - intros (q & cs & n1 & n2 & H1 & H2). exists (p ++ q), cs, n1, n2. split; auto. eapply at_path_app; eauto.
  - intros (q & cs & s & H1 & H2). exists (p ++ q), cs, s. split; auto. eapply at_path_app; eauto.
  - intros (q & b & H1 & H2). exists (p ++ q), b. split; auto. eapply at_path_app; eauto.
Qed.

(** One directory. *)
Section OneDir.
Variables (m : build) (tables : dmap writer) (p : path) (cs0 : list (str * ftree)).
Hypothesis Hget : forall n cs', In (n, FDir cs') cs0 -> exists w s, map_get (from_base p n) tables = Some w
  /\ tab m (FDir cs') = Ok w /\ (forall E, @dirtab_size E w = Ok s) /\ s <= 4000000000.

Lemma add_entry_item e c x w : In c cs0 -> lists_as e c -> item_of m c = Ok x -> add_entry m tables p w e = add_item m w x.
Proof.
  intros Hc [H1 H2] Hx. unfold add_entry, add_item. rewrite H1. unfold item_of in Hx. destruct c as [n t]. cbn [fst snd] in *.
  destruct t as [b|cs'].
  - destruct H2 as [-> H2]. rewrite H2, try_into_spec in *. destruct (len b <? u32_modulus); cbn [bind] in *; [|discriminate].
    injection Hx as <-. reflexivity.
  - rewrite H2. destruct (Hget _ _ Hc) as (w' & s & E1 & E2 & E3 & _). rewrite E1. cbn [unwrap bind].
    rewrite E2 in Hx. cbn [bind] in Hx. rewrite E3 in *. cbn [bind] in *. injection Hx as <-. reflexivity.
Qed.

Lemma add_entries_items es cs xs : (forall c, In c cs -> In c cs0) -> Forall2 lists_as es cs -> itemized m cs xs ->
  forall w, foldM (add_entry m tables p) w es = foldM (add_item m) w xs.
Proof.
  intros Hin Hl Hi. revert es Hl. induction Hi as [|c x cs xs Hx Hi IH]; intros es Hl w; inversion Hl as [|e c' es' cs' He Hl']; subst; [reflexivity|].
  cbn [foldM]. rewrite (add_entry_item e c x) by (auto; apply Hin; left; auto).
  destruct (add_item m w x); cbn [bind]; auto. apply IH; auto. intros c' Hc'. apply Hin. right. auto.
Qed.

Lemma items_split cs : (forall c, In c cs -> In c cs0) ->
  (exists xs, itemized m cs xs) \/ exists cs1 n b cs2 xs1, cs = cs1 ++ (n, FFile b) :: cs2 /\ itemized m cs1 xs1 /\ u32_modulus <= len b.
Proof.
  induction cs as [|[n t] cs IH]; intros Hin; [left; exists []; constructor|].
  assert (Hx : (exists x, item_of m (n, t) = Ok x) \/ exists b, t = FFile b /\ u32_modulus <= len b).
  { unfold item_of. cbn [fst snd]. destruct t as [b|cs'].
    - rewrite try_into_spec. destruct (N.ltb_spec (len b) u32_modulus); cbn; eauto.
    - destruct (Hget n cs') as (w & s & _ & E2 & E3 & _); [apply Hin; left; auto|]. rewrite E2. cbn [bind]. rewrite E3. cbn. eauto. }
  destruct Hx as [(x & Hx)|(b & -> & Hb)].
  - destruct IH as [(xs & Hxs)|(cs1 & n' & b & cs2 & xs1 & -> & H1 & H2)]; [intros c Hc; apply Hin; right; auto| |].
    + left. exists (x :: xs). constructor; auto.
    + right. exists ((n, t) :: cs1), n', b, cs2, (x :: xs1). ssplit; auto. constructor; auto.
  - right. exists [], n, b, cs, []. ssplit; auto. constructor.
Qed.

Hypothesis Hlen : len cs0 <= 7000000.
Hypothesis Hnd : NoDup (map fst cs0).

Lemma dir_outcome es : Forall2 lists_as es cs0 ->
  (exists w0 w, foldM (add_entry m tables p) writer_default es = Ok w0 /\ compute_size m w0 = Ok w /\ tab m (FDir cs0) = Ok w
     /\ exists s, (forall E, @dirtab_size E w = Ok s) /\ 0 < s /\ s <= 4000000000 /\ table_size m cs0 s)
  \/ (exists e, (let* w := foldM (add_entry m tables p) writer_default es in compute_size m w) = Err e /\ reason m (FDir cs0) e).
Proof.
  intros Hl.
  assert (Hg : forall cs, (forall c, In c cs -> In c cs0) -> forall xs, itemized m cs xs -> Forall size_fits xs).
  { intros cs Hin xs Hi. eapply itemized_fits; [|exact Hi]. intros n cs' Hc. destruct (Hget n cs' (Hin _ Hc)) as (w & s & _ & ? & ? & ?). eauto. }
  assert (Hent : forall n t, In (n, t) cs0 -> entry_in (FDir cs0) n t) by (intros n t Hc; exists [], cs0; split; [constructor|auto]).
  assert (Herr : forall cs xs, (forall c, In c cs -> In c cs0) -> NoDup (map fst cs) -> itemized m cs xs ->
     (exists w, add_items m xs = Ok w) \/ exists e, add_items m xs = Err e /\ reason m (FDir cs0) e).
  { intros cs xs Hin Hn Hi. pose proof (itemized_names _ _ _ Hi) as Hnm.
    destruct (add_items_outcomes m xs (Hg _ Hin _ Hi)) as [(w & Hw & _)|[(He & x & Hx & Hlong)|(He & Hd)]].
    - eauto.
    - right. exists FileNameTooLong. split; auto. destruct (itemized_in _ _ _ _ Hi Hx) as ([n t] & Hc & Hi').
      cbn. exists n, t. split; [apply Hent; auto|]. apply item_name in Hi'. cbn in Hi'. rewrite <- Hi'. exact Hlong.
    - right. exists DuplicateFileName. split; auto. destruct (not_distinct xs) as (n1 & n2 & H1 & H2 & H3 & H4); auto.
      + rewrite Hnm. exact Hn.
      + cbn. exists [], cs0, n1, n2. rewrite Hnm in *.
        assert (Hincl : forall n, In n (map fst cs) -> In n (map fst cs0)).
        { intros n Hn'. apply in_map_iff in Hn' as (c & <- & Hc). apply in_map. auto. }
        ssplit; auto. constructor. }
  destruct (items_split cs0) as [(xs & Hi)|(cs1 & n & b & cs2 & xs1 & Ecs & Hi & Hb)]; auto.
  - rewrite (add_entries_items es cs0 xs) by auto. fold (add_items m xs).
    destruct (Herr cs0 xs (fun c Hc => Hc) Hnd Hi) as [(w0 & Hw0)|(e & He & Hr)].
    + assert (Hsf : Forall size_fits xs) by (eapply Hg; eauto).
      pose proof (itemized_len _ _ _ Hi) as Hlx.
      destruct (compute_size_outcomes m xs w0 Hw0 Hsf) as [(w & Hw & _)|(He & x & c & Hx & Hc & Hne)]; [unfold u32_modulus; lia| |].
      * left. exists w0, w. ssplit; auto.
        -- apply tab_ok_iff. eauto.
        -- destruct (built_size m xs w0 w Hw0 Hw Hsf) as (s & E1 & E2 & E3 & E4); [lia|]. exists s. ssplit; auto; [lia|].
           exists xs, w0, w. ssplit; auto. eapply itemized_names; eauto.
      * right. exists WStringEncodingError. rewrite Hw0. cbn [bind]. split; auto.
        destruct (itemized_in _ _ _ _ Hi Hx) as ([n t] & Hcin & Hi'). cbn. exists n, t, c. ssplit.
        -- apply Hent; auto.
        -- apply item_name in Hi'. cbn in Hi'. rewrite <- Hi'. exact Hc.
        -- intros (b & Hb). apply (Hne b Hb).
    + right. exists e. rewrite He. cbn. auto.
  - right. 
    assert (Hl' : exists es1 e es2, es = es1 ++ e :: es2 /\ Forall2 lists_as es1 cs1 /\ lists_as e (n, FFile b)).
    { rewrite Ecs in Hl. apply Forall2_app_inv_r in Hl as (es1 & es' & H1 & H2 & ->). inversion H2 as [|e c es2 cs' H3 H4]; subst. eauto 10. }
    destruct Hl' as (es1 & e & es2 & -> & Hl1 & Hl2).
    assert (Hin1 : forall c, In c cs1 -> In c cs0) by (intros c Hc; rewrite Ecs; apply in_or_app; auto).
    rewrite foldM_app, (add_entries_items es1 cs1 xs1) by auto. fold (add_items m xs1).
    destruct (Herr cs1 xs1 Hin1) as [(w0 & Hw0)|(e' & He & Hr)]; auto.
    + rewrite Ecs, map_app in Hnd. apply NoDup_app_inv in Hnd. apply Hnd.
    + exists FileTooLarge. rewrite Hw0. cbn [bind foldM]. split.
      * unfold add_entry at 1. destruct Hl2 as [_ [-> ->]]. cbn [snd fst]. rewrite try_into_spec.
        destruct (N.ltb_spec (len b) u32_modulus); [lia|]. reflexivity.
      * cbn. exists [n], b. split; auto. apply child_at. rewrite Ecs. apply in_or_app. right. left. auto.
    + exists e'. rewrite He. cbn. auto.
Qed.
End OneDir.

Lemma get_insert_list {A} (l : list (path * A)) : forall mp k a, NoDup (map fst l) -> In (k, a) l -> map_get k (insert_list l mp) = Some a.
Proof.
  induction l as [|[q b] l IH]; intros mp k a Hn Hin; [destruct Hin|]. cbn in Hn. inversion Hn as [|? ? H1 H2]; subst.
  change (insert_list ((q, b) :: l) mp) with (insert_list l (map_insert q b mp)).
  destruct Hin as [[= -> ->]|Hin]; [|apply IH; auto].
  clear IH Hn H2. assert (Hg : forall mp, map_get k mp = Some a -> map_get k (insert_list l mp) = Some a).
  { induction l as [|[q' b'] l IH]; intros mp' Hg; [exact Hg|].
    change (insert_list ((q', b') :: l) mp') with (insert_list l (map_insert q' b' mp')).
    apply IH; [intros Hx; apply H1; right; auto|]. rewrite get_insert_other; auto. intros <-. apply H1. left; auto. }
  apply Hg. apply get_insert_same.
Qed.

Definition entries (ds : list (path * list (str * ftree))) : N := fold_right (fun d n => len (snd d) + n) 0 ds.
Lemma entries_app a b : entries (a ++ b) = entries a + entries b.
Proof. unfold entries. induction a as [|x a IH]; cbn [app fold_right]; lia. Qed.
Lemma entries_rev a : entries (rev a) = entries a.
Proof. induction a as [|x a IH]; cbn [rev]; auto. rewrite entries_app, IH. unfold entries. cbn [fold_right]. lia. Qed.

Definition good_tabs (m : build) (ds : list (path * list (str * ftree))) (l : list (path * writer)) : Prop :=
  map fst l = map fst ds /\
  forall q w, In (q, w) l -> exists cs s, In (q, cs) ds /\ tab m (FDir cs) = Ok w /\ (forall E, @dirtab_size E w = Ok s) /\ 0 < s
     /\ s <= 4000000000 /\ table_size m cs s.

Lemma good_app m a b la lb : good_tabs m a la -> good_tabs m b lb -> good_tabs m (a ++ b) (la ++ lb).
Proof.
  intros (H1 & H2) (H3 & H4). split; [rewrite !map_app; congruence|]. intros q w Hin. apply in_app_or in Hin as [Hin|Hin].
  - destruct (H2 _ _ Hin) as (cs & s & ? & ?). exists cs, s. rewrite in_app_iff. auto.
  - destruct (H4 _ _ Hin) as (cs & s & ? & ?). exists cs, s. rewrite in_app_iff. auto.
Qed.

Lemma insert_list_app {A} (a b : list (path * A)) mp : insert_list (a ++ b) mp = insert_list b (insert_list a mp).
Proof. apply fold_left_app. Qed.

Lemma tables_run {D} m (fs : fsys D) t : forall p tables n, proper t -> dirs_small t -> shows fs p t ->
  (exists l, good_tabs m (rev (dirs p t)) l
     /\ foldM (table_step m) (tables, n) (rev (found fs (dirs p t))) = Ok (insert_list l tables, n + entries (dirs p t)))
  \/ (exists e, foldM (table_step m) (tables, n) (rev (found fs (dirs p t))) = Err e /\ reason m t e).
Proof.
  induction t as [b|cs IH] using ftree_rect'; intros p tables n HP HS Hs.
  - left. exists []. cbn. rewrite N.add_0_r. split; [split; auto; intros ? ? []|reflexivity].
  - cbn [dirs found map rev fst]. fold (found fs (concat (rev (map (fun c => dirs (from_base p (fst c)) (snd c)) cs)))).
    assert (Hrev : forall cs0, rev (concat (rev (map (fun c : str * ftree => dirs (from_base p (fst c)) (snd c)) cs0)))
                   = concat (map (fun c => rev (dirs (from_base p (fst c)) (snd c))) cs0)).
    { clear. induction cs0 as [|c cs0 IH]; cbn; auto. rewrite concat_app, rev_app_distr. cbn. rewrite app_nil_r, IH. reflexivity. }
    unfold found. rewrite <- (map_rev (fun x => (fst x, listing_at fs (fst x)))), Hrev.
    assert (G : forall cs0 tables n, (forall c, In c cs0 -> In c cs) ->
      (exists l, good_tabs m (concat (map (fun c => rev (dirs (from_base p (fst c)) (snd c))) cs0)) l
         /\ foldM (table_step m) (tables, n) (found fs (concat (map (fun c => rev (dirs (from_base p (fst c)) (snd c))) cs0)))
            = Ok (insert_list l tables, n + entries (concat (map (fun c => rev (dirs (from_base p (fst c)) (snd c))) cs0))))
      \/ (exists e, foldM (table_step m) (tables, n) (found fs (concat (map (fun c => rev (dirs (from_base p (fst c)) (snd c))) cs0))) = Err e
            /\ reason m (FDir cs) e)).
    { clear -IH HP HS Hs. induction cs0 as [|[nm t] cs0 IH0]; intros tables n Hin.
      - left. exists []. cbn. rewrite N.add_0_r. split; [split; auto; intros ? ? []|reflexivity].
      - cbn [map concat fst snd]. unfold found. rewrite map_app, foldM_app.
        assert (Hc : In (nm, t) cs) by (apply Hin; left; auto).
        rewrite Forall_forall in IH. specialize (IH _ Hc (from_base p nm) tables n). cbn [snd] in IH.
        unfold found in IH. rewrite <- map_rev in IH.
        destruct IH as [(l & Hl & ->)|(e & -> & Hr)].
        + eapply every_dir_sub; [exact HP|]. apply (child_at _ _ _ Hc).
        + eapply every_dir_sub; [exact HS|]. apply (child_at _ _ _ Hc).
        + eapply shows_child; eauto.
        + cbn [bind]. destruct (IH0 (insert_list l tables) (n + entries (dirs (from_base p nm) t))) as [(l' & Hl' & E)|(e & E & Hr)].
          * intros c Hc'. apply Hin. right. auto.
          * left. exists (l ++ l'). split; [apply good_app; auto|]. unfold found in E. rewrite E, insert_list_app, entries_app, entries_rev. f_equal. f_equal. lia.
          * right. exists e. split; auto.
        + right. exists e. split; auto. eapply reason_sub; [apply (child_at _ _ _ Hc)|exact Hr]. }
    rewrite foldM_app. destruct (G cs tables n) as [(l & Hl & E)|(e & E & Hr)]; auto; unfold found in E; rewrite E; [|right; exists e; auto].
    cbn [bind foldM]. unfold table_step. cbn [fst snd].
    destruct (Hs [] cs (at_here _)) as (es & Hes & Hla). rewrite app_nil_r in Hes.
    assert (Hli : listing_at fs p = es) by (unfold listing_at; rewrite Hes; reflexivity).
    rewrite Hli.
    assert (Hnd : NoDup (map fst (concat (map (fun c => rev (dirs (from_base p (fst c)) (snd c))) cs)))).
    { pose proof (dirs_nodup (FDir cs) HP p) as Hn. cbn [dirs map] in Hn. inversion Hn as [|? ? _ Hn']; subst.
      rewrite <- Hrev, map_rev. eapply Permutation_NoDup; [apply Permutation_rev|exact Hn']. }
    assert (Hget : forall nm cs', In (nm, FDir cs') cs -> exists w s, map_get (from_base p nm) (insert_list l tables) = Some w
        /\ tab m (FDir cs') = Ok w /\ (forall E, @dirtab_size E w = Ok s) /\ s <= 4000000000).
    { intros nm cs' Hc. destruct Hl as (Hl1 & Hl2).
      assert (Hd : In (from_base p nm, cs') (concat (map (fun c => rev (dirs (from_base p (fst c)) (snd c))) cs))).
      { apply in_concat. exists (rev (dirs (from_base p nm) (FDir cs'))). split; [apply in_map_iff; exists (nm, FDir cs'); auto|].
        apply -> in_rev. left. reflexivity. }
      assert (Hk : In (from_base p nm) (map fst l)) by (rewrite Hl1; apply (in_map fst) in Hd; exact Hd).
      apply in_map_iff in Hk as ([q w] & Hq & Hin). cbn in Hq. subst q. destruct (Hl2 _ _ Hin) as (cs'' & s & H1 & H2 & H3 & H4 & H5 & H6).
      assert (cs'' = cs') by (eapply same_fst; eauto). subst cs''. exists w, s. ssplit; auto.
      apply get_insert_list; auto. rewrite Hl1. exact Hnd. }
    destruct (dir_outcome m (insert_list l tables) p cs Hget (HS [] cs (at_here _)) (HP [] cs (at_here _)) es Hla) as
      [(w0 & w & E1 & E2 & E3 & s & E4 & E5 & E6 & E7)|(e & E1 & Hr)].
    + left. exists (l ++ [(p, w)]). split.
      * apply good_app; auto. split; auto. intros q w' [[= <- <-]|[]]. exists cs, s. ssplit; auto. left; auto.
      * rewrite E1. cbn [bind]. rewrite E2. cbn [bind]. rewrite insert_list_app. cbn [insert_list fold_left fst snd].
        f_equal. f_equal. unfold entries at 2. cbn [fold_right snd]. fold (entries (concat (rev (map (fun c => dirs (from_base p (fst c)) (snd c)) cs)))).
        rewrite <- (entries_rev (concat (rev _))), Hrev. unfold len. rewrite (Forall2_length _ _ _ Hla). lia.
    + right. exists e. split; auto. destruct (foldM (add_entry m (insert_list l tables) p) writer_default es); cbn [bind] in *; try congruence.
      destruct (compute_size m a); cbn [bind] in *; congruence.
Qed.
