(** Proofs about the image paths of mapping rules (C135). *)
From Verif Require Import M_Base M_Util M_Layout M_Read M_Img M_Trie M_Remap M_Cli M_Host M_Unpack S_Read S_Img S_Trie S_Remap S_Cli S_Unpack S_Target.
From Verif Require Import P_Base P_Template P_Remap P_Overlay P_Cli P_Unpack P_Dotdot.
From Verif Require Import M_Remap S_Remap P_Template.
From Coq Require Import Init.Byte.
Local Open Scope N_scope.

Lemma spl_nonempty s : split_slash s <> [].
Proof. destruct s as [|c s]; [discriminate|]. cbn [split_slash]. destruct (c =? SLASH); [discriminate|]. destruct (split_slash s); discriminate. Qed.
Lemma spl_app a b : split_slash (a ++ 47 :: b) = split_slash a ++ split_slash b.
Proof.
  induction a as [|c a IH]; [reflexivity|]. cbn [app split_slash]. rewrite IH. destruct (c =? SLASH); [reflexivity|].
  pose proof (spl_nonempty a). destruct (split_slash a); [congruence|reflexivity].
Qed.
Lemma spl_plain n : ~ In 47 n -> split_slash n = [n].
Proof. intros H. apply split_no_slash. intros c Hc ->. auto. Qed.

Definition names (s : str) : path := path_from_iter (split_slash s).
Lemma names_app a b : names (a ++ 47 :: b) = names a ++ names b.
Proof. unfold names, path_from_iter. rewrite spl_app, filter_app. reflexivity. Qed.
Lemma names_cons b : names (47 :: b) = names b.
Proof. exact (names_app [] b). Qed.
Lemma names_plain u : u <> [] -> ~ In 47 u -> names u = [u].
Proof. intros Hu H. unfold names. rewrite spl_plain by auto. destruct u; [congruence|reflexivity]. Qed.

Lemma names_fun s p : names_of s p -> p = names s.
Proof.
  intros H. induction H as [|s p H IH|u s p Hu Hs Hr H IH]; [reflexivity|rewrite names_cons; exact IH|].
  destruct Hr as [->|(s' & ->)].
  - inversion H; subst; [rewrite app_nil_r, names_plain by auto; reflexivity|].
    match goal with E : ?a ++ ?b = [] |- _ => destruct a; [congruence|discriminate] end.
  - rewrite names_app, names_plain by auto. rewrite names_cons in IH. rewrite <- IH. reflexivity.
Qed.

(** The first run. *)
Lemma run_dec s : exists u r, s = u ++ r /\ ~ In 47 u /\ (r = [] \/ exists r', r = 47 :: r').
Proof.
  induction s as [|c s (u & r & -> & Hu & Hr)]; [exists [], []; ssplit; auto|].
  destruct (N.eq_dec c 47) as [->|Hc]; [exists [], (47 :: u ++ r); ssplit; auto; right; eexists; reflexivity|].
  exists (c :: u), r. ssplit; auto. intros [E|E]; [exact (Hc E)|exact (Hu E)].
Qed.
Lemma names_names s : names_of s (names s).
Proof.
  remember (length s) as n eqn:E. revert s E. induction n as [n IH] using lt_wf_ind. intros s ->.
  destruct (run_dec s) as (u & r & -> & Hu & Hr). destruct u as [|c u].
  - cbn [app]. destruct Hr as [->|(r' & ->)]; [constructor|]. rewrite names_cons. constructor. apply (IH (length r')); [cbn; lia|reflexivity].
  - assert (En : names ((c :: u) ++ r) = (c :: u) :: names r).
    { destruct Hr as [->|(r' & ->)]; [rewrite app_nil_r, names_plain by (auto; discriminate); reflexivity|].
      rewrite names_app, names_plain by (auto; discriminate). rewrite names_cons. reflexivity. }
    rewrite En. constructor; auto; [discriminate|]. apply (IH (length r)); [rewrite app_length; cbn; lia|reflexivity].
Qed.
Lemma names_iff s p : names_of s p <-> p = names s.
Proof. split; [apply names_fun|]. intros ->. apply names_names. Qed.

Lemma trim_undotted s : undotted s (trim_start_c 46 s).
Proof.
  induction s as [|c s (d & E & Hd & Ht)]; [exists []; ssplit; auto; discriminate|]. cbn [trim_start_c]. destruct (N.eqb_spec c 46) as [->|Hc].
  - exists (46 :: d). ssplit; [cbn; congruence|constructor; auto|exact Ht].
  - exists []. ssplit; auto. intros t' [= ->]. auto.
Qed.
Lemma undotted_fun s t t' : undotted s t -> undotted s t' -> t = t'.
Proof.
  intros (d & -> & Hd & Ht) (d' & E & Hd' & Ht'). revert d' E Hd'. induction Hd as [|c d Hc Hd IH]; intros d' E Hd'.
  - destruct Hd' as [|c' d' <- Hd']; [exact E|]. cbn in E. exfalso. exact (Ht _ E).
  - subst c. destruct Hd' as [|c' d' <- Hd']; [cbn in E; exfalso; exact (Ht' _ (eq_sym E))|]. injection E as E. eauto.
Qed.
Lemma undotted_iff s t : undotted s t <-> t = trim_start_c 46 s.
Proof. split; [intros H; eapply undotted_fun; [exact H|apply trim_undotted]|intros ->; apply trim_undotted]. Qed.

(** Removing slashes at the ends does not change the names. *)
Lemma names_trim_start s : names (trim_start_c 47 s) = names s.
Proof. induction s as [|c s IH]; [reflexivity|]. cbn [trim_start_c]. destruct (N.eqb_spec c 47) as [->|]; [rewrite IH, names_cons|]; reflexivity. Qed.
Lemma trim_start_split x s : exists a, s = a ++ trim_start_c x s /\ Forall (eq x) a.
Proof.
  induction s as [|c s (a & E & Ha)]; [exists []; auto|]. cbn [trim_start_c]. destruct (N.eqb_spec c x) as [->|]; [|exists []; auto].
  exists (x :: a). split; [cbn; congruence|constructor; auto].
Qed.
Lemma trim_end_split s : exists b, s = trim_end_c 47 s ++ b /\ Forall (eq 47) b.
Proof.
  unfold trim_end_c. destruct (trim_start_split 47 (rev s)) as (a & E & Ha). exists (rev a). split.
  - rewrite <- rev_app_distr, <- E, rev_involutive. reflexivity.
  - apply Forall_rev. exact Ha.
Qed.
Lemma names_slashes b : Forall (eq 47) b -> names b = [].
Proof. intros H. induction H as [|c b <- H IH]; [reflexivity|]. rewrite names_cons. exact IH. Qed.
Lemma names_app_slashes a b : Forall (eq 47) b -> names (a ++ b) = names a.
Proof. intros H. destruct H as [|c b <- H]; [rewrite app_nil_r; reflexivity|]. rewrite names_app, (names_slashes b) by auto. apply app_nil_r. Qed.
Lemma trim_dots_app a r : (forall c r', r = c :: r' -> c <> 46) -> trim_start_c 46 (a ++ r) = trim_start_c 46 a ++ r.
Proof.
  intros H. induction a as [|c a IH]; cbn [app trim_start_c].
  - destruct r as [|c r]; [reflexivity|]. apply trim_head. eapply H. reflexivity.
  - destruct (c =? 46); [exact IH|reflexivity].
Qed.

Lemma names_join suf : ordinary suf -> names (join_slash suf) = suf.
Proof.
  intros H. destruct suf as [|s suf]; [reflexivity|]. unfold names. rewrite split_join; [|discriminate|].
  - apply filter_all. eapply Forall_impl; [|exact H]. intros a (Ha & _). exact Ha.
  - eapply Forall_impl; [|exact H]. intros a (_ & Ha) c Hc ->. auto.
Qed.

Lemma target_text s suf : ordinary suf ->
  path_from_iter (split_slash (trim_start_c SLASH (trim_start_c DOT (match suf with [] => s | _ => trim_end_c SLASH s ++ as_string suf end))))
  = names (trim_start_c 46 s) ++ suf.
Proof.
  intros H. change (names (trim_start_c 47 (trim_start_c 46 (match suf with [] => s | _ => trim_end_c 47 s ++ as_string suf end))) = names (trim_start_c 46 s) ++ suf).
  rewrite names_trim_start. destruct suf as [|n suf]; [rewrite app_nil_r; reflexivity|].
  rewrite trim_dots_app by (intros c r' [= <- _]; discriminate). unfold as_string. change SLASH with 47. rewrite names_app, names_join by auto.
  f_equal. destruct (trim_end_split s) as (b & E & Hb). rewrite E at 2. rewrite trim_dots_app.
  - symmetry. apply names_app_slashes. exact Hb.
  - intros c r' ->. inversion Hb; subst. discriminate.
Qed.

Lemma braceless_c60 caps l : braceless caps l ->
  Forall (fun i => match i with Lit c => c <> 123 | Hole n => n < usize_modulus /\ Forall (fun c => c <> 123) (filled caps [Hole n]) end) l.
Proof.
  intros H. eapply Forall_impl; [|exact H]. intros [c|n]; [auto|]. intros (Hn & Hc). split; [exact Hn|].
  apply Forall_forall. intros c Hin ->. auto.
Qed.

Lemma c135_path m caps l suf r : braceless caps l -> ordinary suf ->
  rewrite_path m caps (show l) suf = Ok r <-> exists t p, undotted (filled caps l) t /\ names_of t p /\ r = p ++ suf.
Proof.
  intros HB HO. destruct (c60_lemma m caps l (braceless_c60 _ _ HB)) as (idxs & Ei & Es).
  unfold rewrite_path. rewrite Ei. cbn [bind]. rewrite Es, target_text by auto. split.
  - intros [= <-]. exists (trim_start_c 46 (filled caps l)), (names (trim_start_c 46 (filled caps l))).
    ssplit; [apply trim_undotted|apply names_names|reflexivity].
  - intros (t & p & Ht & Hp & ->). apply undotted_iff in Ht. apply names_iff in Hp. subst. reflexivity.
Qed.

Lemma slashed_join p : slashed p = join_slash p.
Proof. induction p as [|s p IH]; [reflexivity|]. destruct p as [|l p]; [reflexivity|]. change (s ++ 47 :: slashed (l :: p) = s ++ SLASH :: join_slash (l :: p)). rewrite IH. reflexivity. Qed.
Lemma c135_text p : ordinary p -> candidate p = slashed p.
Proof.
  intros H. rewrite slashed_join. change (candidate p) with (trim_start_c SLASH (join_slash p)).
  destruct p as [|[|c s] p]; [reflexivity|destruct (Forall_inv H) as (E & _); congruence|].
  destruct (join_head c s p) as (r & Er). enough (G : forall j, j = c :: r -> trim_start_c SLASH j = j) by exact (G _ Er). intros j ->. apply trim_head. intros ->. apply (Forall_inv H). left. reflexivity.
Qed.

Lemma c135_maps m keys pr suf to caps l r : best keys (pr ++ suf) pr suf -> selects keys (candidate pr) to caps ->
  to = show l -> braceless caps l -> ordinary suf ->
  (exists t p, undotted (filled caps l) t /\ names_of t p /\ r = p ++ suf) -> maps_to m keys (pr ++ suf) r.
Proof. intros Hb Hs -> HB HO Hr. exists pr, suf, (show l), caps. ssplit; auto. apply c135_path; assumption. Qed.

(** The text is given by the path, so different rules agree on what is below a matched directory. *)
Lemma c135_below m caps l s1 s2 r1 : braceless caps l -> ordinary s1 -> ordinary s2 ->
  rewrite_path m caps (show l) s1 = Ok r1 -> rewrite_path m caps (show l) (s1 ++ s2) = Ok (r1 ++ s2).
Proof.
  intros HB H1 H2 H. apply c135_path in H; auto. destruct H as (t & p & Ht & Hp & ->). apply c135_path; auto.
  - apply Forall_app. auto.
  - exists t, p. ssplit; auto. rewrite app_assoc. reflexivity.
Qed.

(** ** What the overlay shows has ordinary names *)
Lemma names_ordinary s : ordinary (names s).
Proof.
  pose proof (names_names s) as H. unfold ordinary. induction H as [|s p H IH|u s p Hu Hs Hr H IH]; auto.
Qed.
Lemma target_ordinary m caps to suf r : ordinary suf -> rewrite_path m caps to suf = Ok r -> ordinary r.
Proof.
  intros HO H. unfold rewrite_path in H. destruct (find_match_indices m to); cbn [bind] in H; try discriminate.
  rewrite target_text in H by auto. injection H as <-. apply Forall_app. split; [apply names_ordinary|exact HO].
Qed.
Lemma at_path_tail t p x : at_path t p x -> forall a b, p = a ++ b -> exists y, at_path t a y /\ at_path y b x.
Proof.
  intros H. induction H as [t|cs n t p t' Hin H IH]; intros a b E.
  - symmetry in E. apply app_eq_nil in E. destruct E as (-> & ->). exists t. split; constructor.
  - destruct a as [|n' a]; [cbn in E; subst b; exists (FDir cs); split; [constructor|econstructor; eauto]|].
    injection E as <- E. destruct (IH _ _ E) as (y & H1 & H2). exists y. split; [econstructor; eauto|exact H2].
Qed.
Lemma unix_path t h s : unix_tree t -> at_path t h s -> Forall unix_name h.
Proof.
  intros HU H. induction H as [t|cs n t p t' Hin H IH]; constructor.
  - apply (HU [] cs (at_here _) n). apply in_map_iff. exists (n, t). auto.
  - apply IH. intros q cs' Hq. apply (HU (n :: q)). econstructor; eauto.
Qed.
Lemma unix_ordinary p : Forall unix_name p -> ordinary p.
Proof. intros H. eapply Forall_impl; [|exact H]. intros a (H1 & _ & _ & H2 & _). auto. Qed.

(** Names on the paths of an overlay come from the targets. *)
Lemma overlay_names cl t' q x : overlay_shows cl t' -> at_path t' q x -> q <> [] -> exists h s r, In (h, s, r) cl /\ firstn (length q) r = q.
Proof.
  intros (_ & _ & HF & HD) H Hq. assert (exists n, node_at cl q = Some n) as (n & En).
  { destruct x as [b|cs]; [apply HF in H; destruct H as (_ & _ & h & H); eauto|].
    assert (H' : exists cs, at_path t' q (FDir cs)) by eauto. apply HD in H'; auto. destruct H' as (_ & H'). eauto. }
  unfold node_at in En. destruct (claimant q cl) as [[[h s] r]|] eqn:Ec; [|discriminate]. apply claimant_in in Ec. exists h, s, r. exact Ec.
Qed.
Lemma overlay_every cl t' (P : str -> Prop) : overlay_shows cl t' -> (forall h s r, In (h, s, r) cl -> Forall P r) ->
  every_dir (fun cs => forall n, In n (map fst cs) -> P n) t'.
Proof.
  intros HS HP p cs Hp n Hn. apply in_map_iff in Hn. destruct Hn as ([n' y] & <- & Hin). cbn [fst].
  assert (Ha : at_path t' (p ++ [n']) y).
  { clear - Hp Hin. remember (FDir cs) as x eqn:E. induction Hp as [t|cs' m t p t' Hm H IH]; subst; cbn [app]; econstructor; eauto. constructor. }
  destruct (overlay_names cl t' _ _ HS Ha) as (h & s & r & Hc & Hf); [destruct p; discriminate|].
  specialize (HP _ _ _ Hc). rewrite <- (firstn_skipn (length (p ++ [n'])) r) in HP. rewrite Hf in HP. apply Forall_app in HP. destruct HP as (HP & _).
  apply Forall_app in HP. destruct HP as (_ & HP). exact (Forall_inv HP).
Qed.

Lemma claims_ordinary m keys t cl h s r : unix_tree t -> claims m keys (host_order [] t) cl -> In (h, s, r) cl ->
  at_path t h s /\ maps_to m keys h r /\ ordinary r.
Proof.
  intros HU HC Hin. destruct (claims_in _ _ _ _ HC _ _ _ Hin) as (Ho & HM). destruct (order_at t t [] h s (at_here _) Ho) as (Ha & _). ssplit; auto.
  destruct HM as (pr & suf & to & caps & (-> & _) & _ & HR). eapply target_ordinary; [|exact HR].
  apply unix_ordinary. apply (unix_path _ _ _ HU) in Ha. apply Forall_app in Ha. apply Ha.
Qed.

Lemma c136_names fuel m wax (fs : fsys (list byte)) cfg t tr : is_fdir t = true -> proper t -> unix_tree t -> presents fs t ->
  remap_new fuel m wax fs cfg = Ok tr ->
  exists t', presents (overlay tr fs) t' /\ proper t' /\ every_dir (fun cs => forall n, In n (map fst cs) -> n <> [] /\ ~ In 47 n) t'.
Proof.
  intros Hd HP HU HPr H. destruct (c43_lemma _ _ _ _ _ _ _ Hd HP HPr H) as (keys & cl & t' & H1 & H2 & H3 & H4 & H5).
  exists t'. ssplit; [exact H4|apply H3|]. eapply overlay_every; [exact H3|]. intros h s r Hin.
  eapply claims_ordinary; eauto.
Qed.

Definition mild (n : str) : Prop := n <> [46] /\ n <> [46; 46] /\ ~ In 0 n.
Lemma mild_unix n : n <> [] /\ ~ In 47 n -> mild n -> unix_name n.
Proof. intros (H1 & H2) (H3 & H4 & H5). unfold unix_name. auto. Qed.

Lemma c136_lemma fuel m wax (fs : fsys (list byte)) cfg t tr : is_fdir t = true -> proper t -> unix_tree t -> presents fs t -> copies fs t ->
  remap_new fuel m wax fs cfg = Ok tr ->
  exists t', presents (overlay tr fs) t' /\ (small t' ->
    forall fuel' evs evs' img, create_xdvdfs_image fuel' m file_wdev (overlay tr fs) ([], evs) = ((img, evs'), Ok tt) ->
    is_image img t' /\
    forall fuel'' cwd image_path dest w, no_dotdot dest ->
    stays_below (place cwd dest) (w_fs w) (w_fs (fst (cmd_unpack fuel'' cwd image_path img (Some dest) w)))).
Proof.
  intros Hd HP HU HPr HC H. destruct (c43_lemma _ _ _ _ _ _ _ Hd HP HPr H) as (keys & cl & t' & H1 & H2 & H3 & H4 & H5).
  exists t'. split; [exact H4|]. intros Hs fuel' evs evs' img E.
  assert (HI : is_image img t').
  { apply (packed_is_image m).
    - destruct H3 as (Hd' & HP' & _). split; [exact Hd'|]. split; assumption.
    - exists (overlay tr fs), fuel', evs, evs'. auto. }
  split; auto. intros. eapply c47_slashless; [assumption|exact HI|]. eapply overlay_every; [exact H3|]. intros h s r Hin.
  destruct (claims_ordinary _ _ _ _ _ _ _ HU H2 Hin) as (_ & _ & HO). eapply Forall_impl; [|exact HO]. intros n (_ & Hn). exact Hn.
Qed.

Lemma c137_lemma fuel m wax (fs : fsys (list byte)) cfg t tr : is_fdir t = true -> proper t -> unix_tree t -> presents fs t -> copies fs t ->
  remap_new fuel m wax fs cfg = Ok tr ->
  (forall keys h s r n, rules wax cfg keys -> at_path t h s -> maps_to m keys h r -> In n r -> n <> [46] /\ n <> [46; 46] /\ ~ In 0 n) ->
  exists t', presents (overlay tr fs) t' /\ (small t' ->
    forall fuel' evs evs' img, create_xdvdfs_image fuel' m file_wdev (overlay tr fs) ([], evs) = ((img, evs'), Ok tt) ->
    forall cwd image_path dest w, ready_for cwd dest t' w ->
    exists w', returns (fun fuel => cmd_unpack fuel cwd image_path img (Some dest) w) (w', Ok tt) /\ restored (place cwd dest) t' (w_fs w) (w_fs w')).
Proof.
  intros Hd HP HU HPr HC H HT. destruct (c43_lemma _ _ _ _ _ _ _ Hd HP HPr H) as (keys & cl & t' & H1 & H2 & H3 & H4 & H5).
  exists t'. split; [exact H4|]. intros Hs fuel' evs evs' img E.
  assert (HU' : unix_tree t').
  { eapply overlay_every; [exact H3|]. intros h s r Hin. destruct (claims_ordinary _ _ _ _ _ _ _ HU H2 Hin) as (Ha & HM & HO).
    apply Forall_forall. intros n Hn. apply mild_unix; [eapply Forall_forall in HO; eauto|]. exact (HT _ _ _ _ _ H1 Ha HM Hn). }
  assert (HI : is_image img t').
  { apply (packed_is_image m).
    - destruct H3 as (Hd' & HP' & _). split; [exact Hd'|]. split; assumption.
    - exists (overlay tr fs), fuel', evs, evs'. auto. }
  intros. eapply c48_lemma; eauto.
Qed.

Lemma c135_one s t t' p p' : undotted s t -> undotted s t' -> names_of t p -> names_of t' p' -> t = t' /\ p = p'.
Proof.
  intros H1 H2 H3 H4. assert (t = t') as -> by (eapply undotted_fun; eauto). split; [reflexivity|].
  apply names_fun in H3, H4. congruence.
Qed.
