(** The browser back end: packing (C93-C95). *)
From Verif Require Import M_Base M_Util M_Layout M_Avl M_Sector M_Dirtab M_Read M_Img M_Dev M_Trie M_Xfs M_Lin M_Check M_Cli M_Unpack M_Host M_Web.
From Verif Require Import S_Avl S_Codec S_Table S_Read S_Img S_Dev S_Xfs S_Lin S_Check S_Cli S_Unpack S_Web.
From Verif Require Import P_Base P_Codec P_Place P_Dirtab P_Table P_Find P_Read P_Witness P_Map P_Tree P_Tabs P_Scan P_Disk P_Plan P_Pack P_Run P_Bytes P_Image P_File P_Back P_Packed P_Param P_More P_Geom P_Dev P_Order P_Xfs P_Repack P_Lin P_Check.
From Coq Require Import Init.Byte Permutation Sorted Lia.
Local Open Scope N_scope.

(** ** Streams *)
Lemma stream_len data off b : len (stream_write data off b) = N.max (len data) (off + len b).
Proof. unfold stream_write. rewrite !len_app. unfold len, fill in *. rewrite firstn_length, skipn_length, app_length, repeat_length. lia. Qed.
Lemma stream_get data off b i : get (stream_write data off b) i = if (off <=? i) && (i <? off + len b) then get b (i - off) else get data i.
Proof.
  destruct b as [|x b].
  - assert (F : (off <=? i) && (i <? off + len (@nil byte)) = false).
    { change (len (@nil byte)) with 0. destruct (N.leb_spec off i), (N.ltb_spec i (off + 0)); auto; lia. }
    rewrite F. unfold stream_write. change (len (@nil byte)) with 0. rewrite N.add_0_r. cbn [app].
    assert (Hl : len (firstn (N.to_nat off) (data ++ fill (off - len data) x00)) = off).
    { unfold len, fill. rewrite firstn_length, app_length, repeat_length. lia. }
    destruct (N.lt_ge_cases i off) as [H|H].
    + rewrite get_app_l by lia. rewrite get_firstn by lia. destruct (N.lt_ge_cases i (len data)).
      * apply get_app_l. auto.
      * rewrite get_app_r, get_fill by auto. symmetry. apply get_past. auto.
    + rewrite get_app_r by lia. rewrite Hl, get_skipn. f_equal. lia.
  - exact (write_get data off (x :: b) i).
Qed.

(** The stream holds the file [img], and perhaps further zeros. *)
Definition wrel (img : list byte) (w : web) : Prop :=
  ws_len w = len (ws_data w) /\ len img <= len (ws_data w) /\ forall i, get (ws_data w) i = get img i.
Lemma wrel_nil : wrel [] web_new.
Proof. split; [reflexivity|]. split; [reflexivity|]. intros i. reflexivity. Qed.
Lemma wrel_write q img w off b w' : wrel img w -> web_write q w off b = (w', Ok tt) -> wrel (file_write img off b) w'.
Proof.
  intros (H1 & H2 & H3). unfold web_write. destruct (over q _); [discriminate|]. intros [= <-]. unfold wrel. cbn [ws_data ws_len]. rewrite stream_len, write_len.
  split; [rewrite H1; reflexivity|]. split; [destruct (len b =? 0); lia|]. intros i. rewrite stream_get, write_get, H3. reflexivity.
Qed.
Lemma web_write_cases q w off b : (exists w', web_write q w off b = (w', Ok tt) /\ over q (off + len b) = false) \/ web_write q w off b = (w, Err (IoOther 2000)) /\ q <> None.
Proof. unfold web_write. destruct (over q (off + len b)) eqn:E; [right; split; [reflexivity|]; intros ->; discriminate|left; eexists; split; reflexivity]. Qed.

(** Copying a whole file onto a stream. *)
Definition stream_copies (q : option N) (fs : fsys web) (t : ftree) : Prop :=
  forall p b w off, at_path t p (FFile b) -> exists w' r, copy_in fs p w 0 off (len b) = (w', r)
    /\ ((exists n, r = Ok n) /\ (forall img, wrel img w -> wrel (file_write img off b) w') \/ (exists e, r = Err e) /\ q <> None).

Lemma exec_web q (fs : fsys web) t steps : proper t -> stream_copies q fs t -> copies_ok t steps -> forall img w evs, wrel img w ->
  (exists w', exec (web_wdev q) fs steps (w, evs) = ((w', evs ++ flat_map se steps), Ok tt) /\ wrel (writes (flat_map (sw t) steps) img) w')
  \/ (exists w' evs' e, exec (web_wdev q) fs steps (w, evs) = ((w', evs'), Err e) /\ q <> None).
Proof.
  intros HP Hc. induction steps as [|s steps IH]; intros Hok img w evs Hw.
  - left. exists w. cbn. rewrite app_nil_r. auto.
  - inversion Hok as [|? ? Hs Hok']; subst. specialize (IH Hok'). cbn [exec flat_map]. rewrite writes_app. rewrite !app_assoc.
    destruct s as [e|off b|p off size]; cbn [exec_step sw se].
    + unfold pbind. unfold report. cbn [fst snd]. exact (IH img w (evs ++ [e]) Hw).
    + unfold pbind. unfold pwrite. cbn [fst snd web_wdev dev_write].
      destruct (web_write_cases q w off b) as [(w1 & E & _)|(E & Hq)]; rewrite E; cbn [map_err].
      * rewrite app_nil_r. apply (IH _ w1 evs). eapply wrel_write; eauto.
      * right. do 3 eexists. split; [reflexivity|exact Hq].
    + destruct Hs as (b & Hb & ->). rewrite (file_bytes_at t HP p b Hb). destruct (Hc p b w off Hb) as (w1 & r & E & H).
      unfold pbind. unfold pcopy. cbn [fst snd]. rewrite E. destruct H as [((n & ->) & H)|((e & ->) & Hq)]; cbn [map_err pret].
      * rewrite app_nil_r. apply (IH _ w1 evs). apply H. exact Hw.
      * right. do 3 eexists. split; [reflexivity|exact Hq].
Qed.

(** The device has the contents of the file in front. *)
Lemma wrel_app img w : wrel img w -> ws_data w = img ++ fill (len (ws_data w) - len img) x00.
Proof.
  intros (_ & H2 & H3). apply get_ext; [rewrite len_app, len_fill; lia|]. intros i Hi. rewrite H3. destruct (N.lt_ge_cases i (len img)).
  - rewrite get_app_l; auto.
  - rewrite get_app_r, get_fill by auto. apply get_past. auto.
Qed.

Lemma pad_web q img w evs : wrel img w ->
  (exists w', pad_image (web_wdev q) (w, evs) = ((w', evs), Ok tt) /\ wrel (pad img) w' /\ len (ws_data w') mod 65536 = 0)
  \/ (exists e, pad_image (web_wdev q) (w, evs) = ((w, evs), Err e) /\ q <> None).
Proof.
  intros Hw. pose proof Hw as (H1 & H2 & H3). unfold pad_image, pbind, M_Img.plen. cbn [web_wdev dev_len fst snd map_err]. change (32 * 2048) with 65536. rewrite H1.
  set (n := len (ws_data w)) in *. destruct (N.ltb_spec 0 (n mod 65536)) as [Hn|Hn].
  - unfold pwrite. cbn [web_wdev dev_write fst snd]. set (b := fill (65536 - n mod 65536) x00).
    destruct (web_write_cases q w n b) as [(w1 & E & _)|(E & Hq)]; rewrite E; cbn [map_err]; [left|right; eexists; split; [reflexivity|exact Hq]].
    exists w1. split; [reflexivity|]. unfold web_write in E. destruct (over q _); [discriminate|]. injection E as <-. unfold wrel. cbn [ws_data ws_len].
    rewrite stream_len. fold n. assert (Hb : len b = 65536 - n mod 65536) by apply len_fill. split; [|lia].
    split; [lia|]. split.
    + unfold pad. rewrite len_app, len_fill. unfold padding. destruct (N.ltb_spec 0 (len img mod 65536)); lia.
    + intros i. rewrite stream_get, H3. unfold pad, b. rewrite get_fill.
      assert (X : get (img ++ fill (padding (len img)) x00) i = get img i).
      { destruct (N.lt_ge_cases i (len img)); [apply get_app_l; auto|]. rewrite get_app_r, get_fill, get_past; auto. }
      rewrite X. destruct (N.leb_spec n i) as [Hi|Hi]; cbn [andb]; [|reflexivity]. rewrite (get_past img) by lia. destruct (_ <? _); reflexivity.
  - left. exists w. split; [reflexivity|]. split; [|fold n; lia]. split; [exact H1|]. fold n. split.
    + unfold pad. rewrite len_app, len_fill. unfold padding. destruct (N.ltb_spec 0 (len img mod 65536)); lia.
    + intros i. rewrite H3. unfold pad. symmetry. destruct (N.lt_ge_cases i (len img)); [apply get_app_l; auto|]. rewrite get_app_r, get_fill, get_past; auto.
Qed.

Lemma std_copies t : proper t -> copies (std_fs t) t.
Proof. intros HP p b img off H. apply lookup_at in H; auto. cbn. unfold std_copy_file. rewrite H, slice_full. reflexivity. Qed.

Lemma web_run m q t old : source t -> forall (fs : fsys web), presents fs t -> stream_copies q fs t ->
  exists x, web_outcome m q t old x /\ forall fuel, (length (dirs [] t) < fuel)%nat -> web_close old (create_xdvdfs_image fuel m (web_wdev q) fs (web_new, [])) = x.
Proof.
  intros HS fs Hp Hc. pose proof HS as (Ht & HP & Hs). destruct (pack_run m t HP Hs Ht) as (steps & o & Ho & H).
  exists (web_close old (create_xdvdfs_image (S (length (dirs [] t))) m (web_wdev q) fs (web_new, []))). split.
  2:{ intros fuel Hf. rewrite (H _ (web_wdev q) fs _ _ _ Hp Hf), (H _ (web_wdev q) fs (S (length (dirs [] t))) _ _ Hp) by lia. reflexivity. }
  rewrite (H _ (web_wdev q) fs (S (length (dirs [] t))) _ _ Hp) by lia.
  destruct Ho as [pls rs HL|steps e Hre Hok Hh].
  - pose proof (steps_copies m t pls rs HP HL) as Hok. unfold pbind at 1.
    destruct (exec_web q fs t _ HP Hc Hok [] web_new [] wrel_nil) as [(w1 & E & Hw)|(w1 & evs & e & E & Hq)]; rewrite E.
    2:{ right. exists evs, e. split; [reflexivity|]. intros X. contradiction. }
    rewrite steps_writes in Hw. fold (body t pls rs) in Hw. rewrite steps_events. cbn [finish app]. unfold pbind at 1.
    destruct (pad_web q _ w1 (run_events t pls) Hw) as [(w2 & E2 & Hw2 & Hm)|(e & E2 & Hq)]; rewrite E2.
    2:{ right. exists (run_events t pls), e. split; [reflexivity|]. intros X. contradiction. }
    left. unfold report, web_close. cbn [fst snd]. exists (final t pls rs), (run_events t pls ++ [EFinishedPacking]). split; [reflexivity|]. split.
    { exists (S (length (dirs [] t))). intros fuel Hf. rewrite (H _ file_wdev (std_fs t) fuel _ _ (std_presents t HP)) by lia.
      unfold pbind at 1. rewrite (exec_file (std_fs t) t _ HP (std_copies t HP) Hok). rewrite steps_writes, steps_events. fold (body t pls rs).
      cbn [finish app]. unfold pbind at 1. rewrite pad_file. reflexivity. }
    pose proof (wrel_app _ _ Hw2) as Happ. fold (final t pls rs) in *. split; [eexists; split; [exact Happ|exact Hm]|].
    rewrite Happ. unfold final, pad. rewrite <- app_assoc. eapply body_readable; eauto.
  - unfold pbind at 1. destruct (exec_web q fs t _ HP Hc Hok [] web_new [] wrel_nil) as [(w1 & E & Hw)|(w1 & evs & e' & E & Hq)]; rewrite E; right.
    + cbn [finish plift]. do 2 eexists. split; [reflexivity|]. intros _. exists e. split; [reflexivity|exact Hre].
    + exists evs, e'. split; [reflexivity|]. intros X. contradiction.
Qed.

(** ** Source directories *)
Definition fill_in := fix fill_in (cs : list (str * ftree)) (m : list (str * ftree)) : list (str * ftree) :=
  match cs with [] => m | (n, c) :: cs => fill_in cs (smap_insert n (populate c) m) end.
Lemma populate_dir cs : populate (FDir cs) = FDir (fill_in cs []).
Proof. reflexivity. Qed.

Lemma smap_perm {V} k (v : V) m : ~ In k (map fst m) -> Permutation (smap_insert k v m) ((k, v) :: m).
Proof.
  induction m as [|[k' v'] m IH]; intros H; cbn [smap_insert]; [reflexivity|]. destruct (str_cmp k k') eqn:E.
  - apply P_Map.str_cmp_eq in E. subst. exfalso. apply H. left. reflexivity.
  - reflexivity.
  - etransitivity; [apply perm_skip, IH; intros X; apply H; right; exact X|apply perm_swap].
Qed.

Lemma fill_in_spec cs : forall m, ssorted m -> NoDup (map fst cs ++ map fst m) ->
  ssorted (fill_in cs m) /\ Permutation (fill_in cs m) (map (fun c => (fst c, populate (snd c))) cs ++ m).
Proof.
  induction cs as [|[n c] cs IH]; intros m Hm Hn; cbn [fill_in map app fst snd]; [split; [exact Hm|reflexivity]|].
  cbn [map app fst] in Hn. inversion Hn as [|? ? H1 H2]; subst.
  assert (Hk : ~ In n (map fst m)) by (intros X; apply H1, in_app_iff; right; exact X).
  pose proof (smap_perm n (populate c) m Hk) as Pm. destruct (IH (smap_insert n (populate c) m)) as (A & B).
  - apply smap_insert_spec. exact Hm.
  - apply (Permutation_NoDup (l := n :: map fst cs ++ map fst m)); [|exact Hn].
    etransitivity; [apply Permutation_middle|]. apply Permutation_app_head. symmetry. apply (Permutation_map fst) in Pm. exact Pm.
  - split; [exact A|]. etransitivity; [exact B|]. etransitivity; [apply Permutation_app_head; exact Pm|]. symmetry. apply Permutation_middle.
Qed.

Lemma populate_same t : proper t -> same_tree t (populate t).
Proof.
  induction t as [b|cs IH] using ftree_rect'; intros HP; [constructor|]. rewrite populate_dir.
  assert (Hn : NoDup (map fst cs ++ @map (str * ftree) str fst [])) by (cbn [map]; rewrite app_nil_r; apply (HP [] cs); constructor).
  destruct (fill_in_spec cs [] ltac:(constructor) Hn) as (_ & B). rewrite app_nil_r in B. eapply same_dir; [exact B|].
  assert (HP' : forall c, In c cs -> proper (snd c)) by (intros [n c] Hc p ds Hat; apply (HP (n :: p)); econstructor; eauto).
  clear HP Hn B. induction cs as [|c cs IHc]; [constructor|]. inversion IH; subst. cbn [map]. constructor.
  - split; [reflexivity|]. cbn [snd]. apply H1. apply HP'. left. reflexivity.
  - apply IHc; auto. intros c' Hc'. apply HP'. right. exact Hc'.
Qed.

Lemma fill_in_sorted cs : forall m, ssorted m -> ssorted (fill_in cs m).
Proof. induction cs as [|[n c] cs IH]; intros m Hm; cbn [fill_in]; auto. apply IH. apply smap_insert_spec. exact Hm. Qed.
Lemma fill_in_from cs : forall m x, In x (fill_in cs m) -> In x m \/ exists c, In (fst x, c) cs /\ snd x = populate c.
Proof.
  induction cs as [|[n c] cs IH]; intros m x; cbn [fill_in]; auto. intros H. apply IH in H as [H|(c' & H1 & H2)]; [|right; exists c'; split; [right; exact H1|exact H2]].
  assert (G : forall m, In x (smap_insert n (populate c) m) -> In x m \/ x = (n, populate c)).
  { clear. induction m as [|[k v] m IH]; cbn [smap_insert]; [intros [<-|[]]; auto|]. destruct (str_cmp n k) eqn:E; intros H.
    - apply P_Map.str_cmp_eq in E as ->. destruct H as [<-|H]; cbn; auto.
    - destruct H as [<-|[<-|H]]; cbn; auto.
    - destruct H as [<-|H]; cbn; auto. apply IH in H as [H|H]; cbn; auto. }
  apply G in H as [H|H]; [left; exact H|]. subst x. right. exists c. split; [left; reflexivity|reflexivity].
Qed.
Lemma ssorted_lex {V} (m : list (str * V)) : ssorted m -> StronglySorted (fun a b => lex_lt (fst a) (fst b)) m.
Proof.
  induction 1 as [|x m HS IH HF]; constructor; auto. eapply Forall_impl; [|exact HF]. intros y Hy. apply lex_lt_iff. exact Hy.
Qed.
Lemma populate_sorted t : name_sorted (populate t).
Proof.
  induction t as [b|cs IH] using ftree_rect'; intros p ds Hat; [inversion Hat|]. rewrite populate_dir in Hat.
  inversion Hat as [? E1 E2 E3|cs' n c p' t' Hin Hat']; subst.
  - apply ssorted_lex, fill_in_sorted. constructor.
  - apply fill_in_from in Hin as [[]|(c' & H1 & H2)]. cbn [fst snd] in *. subst c. rewrite Forall_forall in IH. exact (IH _ H1 p' ds Hat').
Qed.

Lemma sorted_nodup {V} (m : list (str * V)) : StronglySorted (fun a b => lex_lt (fst a) (fst b)) m -> NoDup (map fst m).
Proof.
  induction 1 as [|x m HS IH HF]; cbn [map]; constructor; auto. intros X. apply in_map_iff in X as (y & E & Hy). rewrite Forall_forall in HF. specialize (HF y Hy).
  exact (lex_lt_irr (fst x) (eq_ind (fst y) (fun z => lex_lt (fst x) z) HF (fst x) E)).
Qed.

(** A sorted tree is determined by its contents. *)
Lemma sorted_trees t : forall t', name_sorted t -> name_sorted t' -> same_tree t t' -> t = t'.
Proof.
  induction t as [b|cs IH] using ftree_rect'; intros t' S1 S2 H; [apply same_file_l in H; auto|].
  destruct (same_fdir_l _ _ H) as (ds & ->). pose proof (S1 [] cs (at_here _)) as A. pose proof (S2 [] ds (at_here _)) as B. f_equal.
  assert (C1 : forall c, In c cs -> name_sorted (snd c)) by (intros [n c] Hc p xs Hat; apply (S1 (n :: p)); econstructor; eauto).
  assert (C2 : forall c, In c ds -> name_sorted (snd c)) by (intros [n c] Hc p xs Hat; apply (S2 (n :: p)); econstructor; eauto).
  rewrite Forall_forall in IH. apply sorted_same; auto. intros [n c]. split; intros Hin.
  - destruct (same_child _ _ _ _ H Hin) as (c' & H1 & H2). pose proof (IH _ Hin c' (C1 _ Hin) (C2 _ H1) H2) as E. cbn [snd] in E. subst c'. exact H1.
  - destruct (same_child_back _ _ _ _ H Hin) as (c' & H1 & H2). pose proof (IH _ H1 c (C1 _ H1) (C2 _ Hin) H2) as E. cbn [snd] in E. subst c'. exact H1.
Qed.

Lemma same_sym t : forall t', same_tree t t' -> same_tree t' t.
Proof.
  induction t as [b|cs IH] using ftree_rect'; intros t' H; [apply same_file_l in H as ->; constructor|].
  inversion H as [|? ds ds' HPm HF]; subst. clear H.
  assert (X : exists cs', Permutation cs cs' /\ Forall2 (fun c d => fst c = fst d /\ same_tree (snd c) (snd d)) cs' ds).
  { destruct (Permutation_Forall2 (Permutation_sym HPm) (P := fun d c : str * ftree => fst c = fst d /\ same_tree (snd c) (snd d)) (l2 := cs)) as (cs' & P1 & P2).
    - clear -HF. induction HF; constructor; auto.
    - exists cs'. split; [exact P1|]. clear -P2. induction P2; constructor; auto. }
  destruct X as (cs' & P1 & P2). eapply same_dir; [exact P1|].
  assert (IH' : Forall (fun c => forall t', same_tree (snd c) t' -> same_tree t' (snd c)) cs').
  { rewrite Forall_forall in *. intros c Hc. apply IH. eapply Permutation_in; [symmetry; exact P1|exact Hc]. }
  clear -P2 IH'. induction P2 as [|c d l l' (E & Hs) HF IHf]; constructor; inversion IH'; subst; auto.
Qed.

Lemma same_trans a b c : same_tree a b -> same_tree b c -> same_tree a c.
Proof.
  revert b c. induction a as [x|cs IH] using ftree_rect'; intros b c H1 H2; [apply same_file_l in H1 as ->; exact H2|].
  destruct (same_fdir_l _ _ H1) as (ds & ->). destruct (same_fdir_l _ _ H2) as (es & ->). inversion H1 as [|? ? ds' P1 F1]; subst. inversion H2 as [|? ? es' P2 F2]; subst.
  destruct (Permutation_Forall2 P1 F2) as (es2 & P3 & F3). eapply same_dir; [etransitivity; [exact P2|exact P3]|].
  clear -F1 F3 IH. revert es2 F3. induction F1 as [|c d l l' (E & Hs) HF IHf]; intros es2 F3; inversion F3 as [|? y ? ys (E2 & G2) F4]; subst; constructor; inversion IH as [|? ? G1 G3]; subst.
  - split; [congruence|]. eapply G1; eauto.
  - apply IHf; auto.
Qed.

Lemma populate_unique t t' : proper t -> proper t' -> same_tree t t' -> populate t = populate t'.
Proof.
  intros H1 H2 H. apply sorted_trees; try apply populate_sorted. eapply same_trans; [apply same_sym, populate_same; auto|].
  eapply same_trans; [exact H|]. apply populate_same. exact H2.
Qed.

Lemma web_presents {D} (f : fsys D) t : proper t -> read_dir f = web_read_dir t -> presents f t.
Proof.
  intros HP E p cs Hat. apply lookup_at in Hat; auto. exists (map web_entry cs). rewrite E. unfold web_read_dir, web_walk. rewrite Hat. cbn [unwrap bind]. split; auto.
  clear. induction cs as [|[n s] cs IH]; constructor; auto. destruct s; split; cbn; auto.
Qed.
Lemma web_stream_copies q t f : proper t -> copy_in f = web_copy q t -> stream_copies q f t.
Proof.
  intros HP E p b w off Hat. apply lookup_at in Hat; auto. rewrite E. unfold web_copy, web_walk. rewrite Hat, slice_full, N.eqb_refl.
  destruct (web_write_cases q w off b) as [(w1 & E1 & _)|(E1 & Hq)]; rewrite E1; do 2 eexists; (split; [reflexivity|]).
  - left. split; [eexists; reflexivity|]. intros img Hw. eapply wrel_write; eauto.
  - right. split; [eexists; reflexivity|exact Hq].
Qed.

Lemma c93_lemma m q t old : source t -> exists t', same_tree t t' /\ name_sorted t'
  /\ exists x, returns (fun fuel => web_pack fuel m q t old) x /\ web_outcome m q t' old x.
Proof.
  intros HS. pose proof HS as (Ht & HP & Hs). exists (populate t). pose proof (populate_same t HP) as Hsame. split; [exact Hsame|]. split; [apply populate_sorted|].
  pose proof (same_source _ _ Hsame HS) as HS'. pose proof HS' as (Ht' & HP' & Hs').
  destruct (web_run m q (populate t) old HS' (web_fs q t)) as (x & Hx & Hrun).
  - apply web_presents; auto.
  - apply web_stream_copies; auto.
  - exists x. split; [|exact Hx]. exists (S (length (dirs [] (populate t)))). intros fuel Hf. apply Hrun. lia.
Qed.

(** ** From an image *)
Lemma rw_loop_web q src b off_in off_out : supplies src off_in b -> forall fuel copied w,
  copied <= len b -> chunks_left (len b) copied <= N.of_nat fuel ->
  exists w' r, rw_copy_loop fuel src (web_wdev q) off_in off_out (len b) copied w = (w', r)
   /\ (r = Ok (len b) /\ (forall img, wrel (file_write img off_out (slice b 0 copied)) w -> wrel (file_write img off_out b) w')
       \/ (exists e, r = Err e) /\ q <> None).
Proof.
  intros HS. induction fuel as [|fuel IH]; intros copied w Hc Hf; cbn [rw_copy_loop]; (destruct (N.ltb_spec copied (len b)) as [Hlt|Hge];
    [|replace copied with (len b) by lia; rewrite N.eqb_refl; cbn; do 2 eexists; split; [reflexivity|]; left; split; [reflexivity|]; intros img; rewrite slice_full; auto]).
  { pose proof (left_step _ _ Hlt). lia. }
  pose proof (left_step _ _ Hlt) as Hstep. set (n := N.min COPY_BUFFER (len b - copied)) in *. assert (Hn : 0 < n) by (unfold n, COPY_BUFFER; lia).
  rewrite (HS copied n) by (unfold n; lia). cbn [map_err web_wdev dev_write].
  destruct (web_write_cases q w (off_out + copied) (slice b copied n)) as [(w1 & E1 & _)|(E1 & Hq)]; rewrite E1; cbn [map_err].
  2:{ do 2 eexists. split; [reflexivity|]. right. split; [eexists; reflexivity|exact Hq]. }
  destruct (IH (copied + n) w1) as (w' & r & E2 & H); [unfold n; lia|lia|]. exists w', r. split; [exact E2|]. destruct H as [(-> & H)|H]; [left|right; exact H].
  split; [reflexivity|]. intros img Hw. apply H. pose proof (wrel_write _ _ _ _ _ _ Hw E1) as Hw1.
  replace (off_out + copied) with (off_out + len (slice b 0 copied)) in Hw1 by (rewrite slice_len; lia).
  rewrite write_write in Hw1. pose proof (slice_join b 0 copied n) as J. rewrite N.add_0_l in J. rewrite J in Hw1. exact Hw1.
Qed.

Lemma by_stream q d t fs : copies_by d t (default_copier d (web_wdev q)) fs -> stream_copies q fs t.
Proof.
  intros Hc p b w off Hat. destruct (Hc p b Hat) as (off_in & H1 & H2). rewrite H2. destruct b as [|b0 b].
  - do 2 eexists. split; [reflexivity|]. left. split; [eexists; reflexivity|]. intros img Hw. exact Hw.
  - unfold default_copier, rw_copy. destruct (rw_loop_web q d (b0 :: b) off_in off H1 _ 0 w (N.le_0_l _) (rw_fuel _)) as (w' & r & E & H). rewrite E.
    do 2 eexists. split; [reflexivity|]. destruct H as [(-> & H)|((e & ->) & Hq)]; [left|right; split; [eexists; reflexivity|exact Hq]].
    split; [eexists; reflexivity|]. intros img Hw. apply H. exact Hw.
Qed.

Lemma c93_repack_lemma m q file d v t old : open_image file = Ok d -> read_volume d = Ok v -> scans d t (v_root v) -> source t -> latin_tree t ->
  settles (fun fuel => web_repack fuel m q file old) (web_outcome m q t old).
Proof.
  intros Ho Hv Hs HS HL. pose proof HS as (Ht & HP & Hsm). destruct (scans_bound _ _ _ Hs) as (k & Hk). exists (Nat.max k (S (length (dirs [] t)))). intros fuel Hf.
  unfold web_repack. rewrite Ho. unfold repack. rewrite Hv.
  destruct (repack_run k d t v HP HL Hk m (web_wdev q) (default_copier d (web_wdev q)) fuel web_new [] Ht ltac:(lia) ltac:(lia)) as (fs & F1 & F2 & F3). rewrite F3.
  destruct (web_run m q t old HS fs F1 (by_stream q d t fs F2)) as (x & Hx & Hrun). rewrite Hrun by lia. exact Hx.
Qed.

(** ** Compressing *)
Lemma web_sector_copies t : proper t -> forall f, copy_in f = web_copy_slice t -> sector_copies f t.
Proof.
  intros HP f E p b i Hat Hi. rewrite E. unfold web_copy_slice, web_walk. apply lookup_at in Hat; auto. rewrite Hat, len_fill.
  change (2048 <? 0) with false. cbn beta iota. change (firstn (N.to_nat 0) (fill 2048 x00)) with (@nil byte). rewrite N.sub_0_r. cbn [app].
  set (n := N.min (len b) (N.min 2048 2048)). set (buf := slice b (2048 * i) n).
  assert (Hn : len buf = N.min n (len b - 2048 * i)) by apply slice_len.
  assert (Hb : N.min 2048 (len buf) = len buf) by lia. rewrite Hb, slice_full. eexists. split; [reflexivity|]. split.
  - rewrite len_app, len_fill. lia.
  - intros j Hj. change byte_at with get. destruct (N.lt_ge_cases j (len buf)).
    + rewrite get_app_l by auto. unfold buf. apply get_slice. lia.
    + rewrite get_app_r, get_fill by auto. symmetry. apply get_past. lia.
Qed.

Lemma c95_lemma m t : source t -> exists t', same_tree t t' /\ name_sorted t' /\ forall img evs, packs m t' img ->
  exists s evs', returns (fun fuel => compress_layout fuel m (web_slice_fs t) ([], evs)) ((s, evs'), Ok tt)
    /\ lin_len s = len img /\ forall k, exists b, read_sector (web_slice_fs t) s k = Ok b /\ is_sector img k b.
Proof.
  intros HS. pose proof HS as (_ & HP & _). pose proof (same_source _ _ (populate_same t HP) HS) as HS'. pose proof HS' as (_ & HP' & _).
  exists (populate t). split; [apply populate_same; exact HP|]. split; [apply populate_sorted|]. intros img evs Hp.
  apply (c37_lemma m (populate t)); auto.
  - apply web_presents; auto.
  - apply web_sector_copies; auto.
Qed.

Lemma c94_lemma fuel m q t1 t2 old : proper t1 -> proper t2 -> same_tree t1 t2 -> web_pack fuel m q t1 old = web_pack fuel m q t2 old.
Proof. intros P1 P2 E. unfold web_pack, web_fs. rewrite (populate_unique t1 t2 P1 P2 E). reflexivity. Qed.
