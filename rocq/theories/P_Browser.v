(** Packing in a browser whose calls may fail (C158). *)
From Verif Require Import M_Base M_Util M_Layout M_Avl M_Sector M_Dirtab M_Read M_Img M_Dev M_Trie M_Xfs M_Lin M_Check M_Cli M_Unpack M_Host M_Web M_Gui M_Jobs M_Browser.
From Verif Require Import S_Avl S_Codec S_Table S_Read S_Img S_Dev S_Xfs S_Lin S_Check S_Cli S_Unpack S_Web S_Moving S_Gui S_Jobs.
From Verif Require Import P_Base P_Codec P_Place P_Dirtab P_Table P_Find P_Read P_Witness P_Map P_Tree P_Tabs P_Scan P_Disk P_Plan P_Pack P_Run P_Bytes P_Image P_File P_Back P_Packed P_Param P_More P_Geom P_Dev P_Order P_Xfs P_Repack P_Lin P_Check P_Compress P_Moving P_Web P_Gui P_Jobs.
From Coq Require Import Init.Byte Permutation Sorted Lia.
Local Open Scope N_scope.

(** ** Listings that fail *)
Section Reads.
Context {D : Type}.
Variables (r1 r2 : path -> res ioerr (list fentry)) (c : path -> D -> N -> N -> N -> D * res ioerr N).
Hypothesis Hr : forall p, r1 p = r2 p \/ exists e, r1 p = Err e.
Notation fs1 := (mkFsys D r1 c).
Notation fs2 := (mkFsys D r2 c).
Lemma reads_tree fuel : forall dirs out s, dir_tree_loop fuel fs1 dirs out s = dir_tree_loop fuel fs2 dirs out s \/ exists s' e, dir_tree_loop fuel fs1 dirs out s = (s', Err e).
Proof.
  induction fuel as [|fuel IH]; intros [|dir dirs] out s; cbn [dir_tree_loop]; auto. unfold pbind at 1 3 5. unfold plift. cbn [read_dir].
  destruct (Hr dir) as [E|(e & E)]; rewrite E; [|right; do 2 eexists; reflexivity]. destruct (r2 dir) as [es|e|p|]; cbn [map_err]; auto.
  unfold pbind. unfold report. cbn [fst snd]. apply IH.
Qed.
Lemma reads_listing p l : forall secs s, add_listing fs1 p l secs s = add_listing fs2 p l secs s.
Proof.
  induction l as [|e l IH]; intros secs s; cbn [add_listing]; auto. unfold pbind at 1 3. unfold report. cbn [fst snd]. destruct (l_is_dir e); [apply IH|].
  unfold pbind. unfold pcopy. cbn [fst snd copy_in]. destruct (c _ _ _ _ _) as [d [a|x|x|]]; cbn [map_err]; auto.
Qed.
Lemma reads_tables m (W : wdev D) l : forall nf secs s, add_tables m W fs1 l nf secs s = add_tables m W fs2 l nf secs s.
Proof.
  induction l as [|(p, w) l IH]; intros nf secs s; cbn [add_tables]; auto.
  unfold pbind at 1 6. destruct (plift (unwrap (map_get p secs)) s) as [s1 [a|x|x|]]; auto.
  unfold pbind at 1 5. destruct (plift _ s1) as [s2 [[t nf']|x|x|]]; auto.
  unfold pbind at 1 4. unfold report. cbn [fst snd]. 
  unfold pbind at 1 3. destruct (pwrite W _ _ _) as [s4 [[]|x|x|]]; auto.
  unfold pbind. rewrite reads_listing. destruct (add_listing fs2 _ _ _ _) as [s5 [a5|x|x|]]; auto.
Qed.
Lemma reads_create fuel m (W : wdev D) s : create_xdvdfs_image fuel m W fs1 s = create_xdvdfs_image fuel m W fs2 s \/ exists s' e, create_xdvdfs_image fuel m W fs1 s = (s', Err e).
Proof.
  unfold create_xdvdfs_image, dir_tree. unfold pbind at 1 9 17. destruct (reads_tree fuel [[]] [] s) as [E|(s' & e & E)]; rewrite E; [|right; eauto]. left.
  destruct (dir_tree_loop fuel fs2 [[]] [] s) as [s1 [a|x|x|]]; auto.
  unfold pbind at 1 8. destruct (create_dirent_tables m a s1) as [s2 [b|x|x|]]; auto.
  unfold pbind at 1 7. destruct (plift _ s2) as [s3 [[rp rd]|x|x|]]; auto.
  unfold pbind at 1 6. destruct (plift _ s3) as [s4 [rs|x|x|]]; auto.
  unfold pbind at 1 5. destruct (plift _ s4) as [s5 [[nf sec]|x|x|]]; auto.
  unfold pbind at 1 4. rewrite reads_tables. destruct (add_tables m W fs2 _ _ _ _) as [s6 [n|x|x|]]; auto.
Qed.
End Reads.

Section Fate.
Variable F : fate.
Notation snap := (snapshot (f_now F)).

(** A file is shorter when it is copied. *)
Definition shrunk (t : ftree) : Prop := exists p b b', at_path t p (FFile b) /\ f_now F p = Some b' /\ len b' < len b.
Definition br_copies (fs : fsys clocked) (t : ftree) : Prop :=
  forall p b w n off, at_path (snap [] t) p (FFile b) -> exists w' n' r, copy_in fs p (w, n) 0 off (len b) = ((w', n'), r)
    /\ ((exists k, r = Ok k) /\ (forall img, wrel img w -> wrel (file_write img off b) w') /\ (forall b0, at_path t p (FFile b0) -> kept (f_now F) p (len b0))
        \/ (exists e, r = Err e) \/ r = Panic PAssert /\ shrunk t).
Lemma br_write_cases w n off b : (exists w', br_write F (w, n) off b = ((w', S n), Ok tt) /\ web_write None w off b = (w', Ok tt)) \/ br_write F (w, n) off b = ((w, S n), Err (IoOther 2000)).
Proof. unfold br_write. destruct (f_calls F n); [left|right; reflexivity]. eexists. split; reflexivity. Qed.
Lemma br_copies_fs t f : proper t -> copy_in f = br_copy F t -> br_copies f t.
Proof.
  intros HP Hf p b' w n off Hb. destruct (snap_file _ _ _ _ Hb) as (b & Hb0 & ->). rewrite Hf. unfold br_copy, web_walk. rewrite (proj2 (lookup_at t p _ HP) Hb0), fitted_len.
  destruct (f_calls F n); [|do 3 eexists; split; [reflexivity|right; left; eexists; reflexivity]].
  destruct (f_now F p) as [x|] eqn:Ex; [|do 3 eexists; split; [reflexivity|right; left; eexists; reflexivity]].
  destruct (N.eqb_spec (len (slice x 0 (len b))) (len b)) as [El|El].
  - assert (Hx : len b <= len x) by (unfold slice, len in *; rewrite firstn_length in El; change (skipn (N.to_nat 0) x) with x in El; lia).
    destruct (br_write_cases w (S n) off (slice x 0 (len b))) as [(w1 & E & E1)|E]; rewrite E; [|do 3 eexists; split; [reflexivity|right; left; eexists; reflexivity]].
    do 3 eexists. split; [reflexivity|]. left. split; [eexists; reflexivity|]. split.
    + intros img Hw. rewrite fitted_whole by exact Hx. change (firstn (N.to_nat (len b)) x) with (slice x 0 (len b)). eapply wrel_write; eauto.
    + intros b0 Hb1. clear Hb. pose proof (at_fun t HP p _ _ Hb0 Hb1) as [= <-]. exists x. auto.
  - do 3 eexists. split; [reflexivity|]. right. right. split; [reflexivity|]. exists p, b, x. split; [exact Hb0|]. split; [exact Ex|].
    unfold slice, len in *. rewrite firstn_length in El. change (skipn (N.to_nat 0) x) with x in El. lia.
Qed.

Lemma exec_br (fs : fsys clocked) t steps : source t -> br_copies fs t -> copies_ok (snap [] t) steps -> forall img w n evs, wrel img w ->
  (exists w' n', exec (br_wdev F) fs steps ((w, n), evs) = (((w', n'), evs ++ flat_map se steps), Ok tt) /\ wrel (writes (flat_map (sw (snap [] t)) steps) img) w'
     /\ forall p off size, In (SCopy p off size) steps -> forall b0, at_path t p (FFile b0) -> kept (f_now F) p (len b0))
  \/ (exists s' e, exec (br_wdev F) fs steps ((w, n), evs) = (s', Err e))
  \/ (exists s', exec (br_wdev F) fs steps ((w, n), evs) = (s', Panic PAssert) /\ shrunk t).
Proof.
  intros HS Hc. pose proof (snap_source (f_now F) t HS) as (_ & HP & _). induction steps as [|s steps IH]; intros Hok img w n evs Hw.
  - left. exists w, n. cbn. rewrite app_nil_r. repeat split; auto; try apply Hw. intros ? ? ? [].
  - inversion Hok as [|? ? Hs Hok']; subst. specialize (IH Hok'). cbn [exec flat_map]. rewrite writes_app. rewrite !app_assoc.
    destruct s as [e|off b|p off size]; cbn [exec_step sw se].
    + unfold pbind. unfold report. cbn [fst snd]. destruct (IH img w n (evs ++ [e]) Hw) as [(w' & n' & E & H1 & H2)|H]; [left|right; exact H].
      exists w', n'. split; [exact E|]. split; [exact H1|]. intros p off size [Q|Q]; [discriminate|eapply H2; eauto].
    + unfold pbind. unfold pwrite. cbn [fst snd br_wdev dev_write].
      destruct (br_write_cases w n off b) as [(w1 & E & E1)|E]; rewrite E; cbn [map_err].
      * rewrite app_nil_r. destruct (IH _ w1 (S n) evs (wrel_write _ _ _ _ _ _ Hw E1)) as [(w' & n' & E' & H1 & H2)|H]; [left|right; exact H].
        exists w', n'. split; [exact E'|]. split; [exact H1|]. intros p' off' size [Q|Q]; [discriminate|eapply H2; eauto].
      * right. left. do 2 eexists. reflexivity.
    + destruct Hs as (b & Hb & ->). rewrite (file_bytes_at _ HP p b Hb). destruct (Hc p b w n off Hb) as (w1 & n1 & r & E & H).
      unfold pbind. unfold pcopy. cbn [fst snd]. rewrite E. destruct H as [((k & ->) & H & Hk)|[(e & ->)|(-> & Hk)]]; cbn [map_err pret].
      * rewrite app_nil_r. destruct (IH _ w1 n1 evs (H _ Hw)) as [(w' & n' & E' & H1 & H2)|H']; [left|right; exact H'].
        exists w', n'. split; [exact E'|]. split; [exact H1|]. intros p' off' size [Q|Q]; [injection Q as <- _ _; exact Hk|eapply H2; eauto].
      * right. left. do 2 eexists. reflexivity.
      * right. right. eexists. split; [reflexivity|exact Hk].
Qed.

Lemma pad_br img w n evs : wrel img w ->
  (exists w' n', pad_image (br_wdev F) ((w, n), evs) = (((w', n'), evs), Ok tt) /\ wrel (pad img) w' /\ len (ws_data w') mod 65536 = 0)
  \/ (exists s' e, pad_image (br_wdev F) ((w, n), evs) = (s', Err e)).
Proof.
  intros Hw. destruct (pad_web None img w evs Hw) as [(w' & E & H)|(e & _ & Q)]; [|congruence]. revert E. unfold pad_image, pbind, M_Img.plen.
  cbn [web_wdev br_wdev dev_len fst snd map_err]. destruct (0 <? _).
  - unfold pwrite. cbn [web_wdev br_wdev dev_write fst snd]. set (b := fill _ _). destruct (br_write_cases w n (ws_len w) b) as [(w1 & E & E1)|E]; rewrite E; cbn [map_err].
    + rewrite E1. intros [= <-]. left. eauto.
    + intros _. right. eauto.
  - intros [= <-]. left. exists w, n. split; [reflexivity|]. exact H.
Qed.

Lemma br_run m t : source t -> forall (fs : fsys clocked), presents fs t -> br_copies fs t -> forall fuel, (length (dirs [] (snap [] t)) < fuel)%nat ->
  (exists w n evs, create_xdvdfs_image fuel m (br_wdev F) fs ((web_new, O), []) = (((w, n), evs), Ok tt)
     /\ (forall old, web_outcome m None (snap [] t) old (ws_data w, evs, Ok tt)) /\ forall p b, at_path t p (FFile b) -> kept (f_now F) p (len b))
  \/ (exists s e, create_xdvdfs_image fuel m (br_wdev F) fs ((web_new, O), []) = (s, Err e))
  \/ (exists s, create_xdvdfs_image fuel m (br_wdev F) fs ((web_new, O), []) = (s, Panic PAssert) /\ shrunk t).
Proof.
  intros HS fs Hp Hc fuel Hf. apply (snap_presents (f_now F)) in Hp. pose proof (snap_source (f_now F) t HS) as (Ht & HP & Hs). set (t1 := snap [] t) in *.
  destruct (pack_run m t1 HP Hs Ht) as (steps & o & Ho & H). pose proof (H _ (br_wdev F) fs fuel (web_new, O) [] Hp Hf) as HX.
  destruct Ho as [pls rs HL|steps e Hre Hok Hh].
  - pose proof (steps_copies m t1 pls rs HP HL) as Hok. unfold pbind at 1 in HX.
    destruct (exec_br fs t _ HS Hc Hok [] web_new O [] wrel_nil) as [(w1 & n1 & E & Hw & Hk)|[(s' & e & E)|(s' & E & Hk)]]; rewrite E in HX.
    2:{ right. left. eauto. } 2:{ right. right. eauto. }
    fold t1 in Hw. rewrite steps_writes in Hw. fold (body t1 pls rs) in Hw. rewrite steps_events in HX. cbn [finish app] in HX. unfold pbind at 1 in HX.
    destruct (pad_br _ w1 n1 (run_events t1 pls) Hw) as [(w2 & n2 & E2 & Hw2 & Hm)|(s' & e & E2)]; rewrite E2 in HX.
    2:{ right. left. eauto. }
    left. unfold report in HX. cbn [fst snd] in HX. exists w2, n2, (run_events t1 pls ++ [EFinishedPacking]). split; [exact HX|]. split.
    + intros old. left. exists (final t1 pls rs), (run_events t1 pls ++ [EFinishedPacking]). cbn [fst snd]. split; [reflexivity|]. split.
      { exists (S (length (dirs [] t1))). intros fuel' Hf'. rewrite (H _ file_wdev (std_fs t1) fuel' _ _ (std_presents t1 HP)) by lia.
        unfold pbind at 1. rewrite (exec_file (std_fs t1) t1 _ HP (P_Web.std_copies t1 HP) Hok). rewrite steps_writes, steps_events. fold (body t1 pls rs).
        cbn [finish app]. unfold pbind at 1. rewrite pad_file. reflexivity. }
      pose proof (wrel_app _ _ Hw2) as Happ. fold (final t1 pls rs) in *. split; [eexists; split; [exact Happ|exact Hm]|].
      rewrite Happ. unfold final, pad. rewrite <- app_assoc. eapply (body_readable m); [exact (conj Ht (conj HP Hs))|exact HL].
    + intros p b Hb. pose proof (snap_at (f_now F) t p _ Hb []) as Hb'. cbn [app snapshot] in Hb'. fold t1 in Hb'.
      destruct (file_copied m t1 pls rs p _ (conj Ht (conj HP Hs)) HL Hb') as (s & Hin & _). eapply Hk; eauto.
  - unfold pbind at 1 in HX. destruct (exec_br fs t _ HS Hc Hok [] web_new O [] wrel_nil) as [(w1 & n1 & E & Hw & _)|[(s' & e' & E)|(s' & E & Hk)]]; rewrite E in HX.
    + right. left. cbn [finish plift] in HX. unfold plift in HX. eauto.
    + right. left. eauto.
    + right. right. eauto.
Qed.

(** ** The job *)
Lemma br_reads t p : br_read_dir F t p = web_read_dir t p \/ exists e, br_read_dir F t p = Err e.
Proof. unfold br_read_dir. destruct (web_read_dir t p) as [es|e|q|]; cbn [bind]; eauto. destruct (forallb _ es); eauto. Qed.
Lemma br_job m t : source t -> exists t', same_tree t t' /\ name_sorted t' /\ forall fuel, (length (dirs [] (snap [] t')) < fuel)%nat ->
  let x := create_xdvdfs_image fuel m (br_wdev F) (br_fs F (populate t)) ((web_new, O), []) in
  (exists w n evs, x = (((w, n), evs), Ok tt)
     /\ (forall old, web_outcome m None (snap [] t') old (ws_data w, evs, Ok tt)) /\ forall p b, at_path t' p (FFile b) -> kept (f_now F) p (len b))
  \/ (exists s e, x = (s, Err e)) \/ (exists s, x = (s, Panic PAssert) /\ shrunk t').
Proof.
  intros HS. pose proof HS as (Ht & HP & Hs). pose proof (populate_same t HP) as Hst.
  exists (populate t). split; [exact Hst|]. split; [apply populate_sorted|]. intros fuel Hf x.
  assert (HS' : source (populate t)) by (eapply same_source; eauto). pose proof HS' as (_ & HP' & _).
  destruct (reads_create (br_read_dir F (populate t)) (web_read_dir (populate t)) (br_copy F (populate t)) (br_reads (populate t)) fuel m (br_wdev F) ((web_new, O), [])) as [E|(s & e & E)].
  - unfold x, br_fs. rewrite E. apply br_run; auto.
    + apply web_presents; auto.
    + apply br_copies_fs; auto.
  - right. left. exists s, e. exact E.
Qed.
End Fate.

Lemma create_settles m F t fuel x : create_xdvdfs_image fuel m (br_wdev F) (br_fs F (populate t)) ((web_new, O), []) = x -> snd x <> OutOfFuel ->
  forall n, exists fuel', (n < fuel')%nat /\ create_xdvdfs_image fuel' m (br_wdev F) (br_fs F (populate t)) ((web_new, O), []) = x.
Proof. intros H Hx n. exists (S n + fuel)%nat. split; [lia|]. destruct x as [s r]. eapply create_more; eauto. lia. Qed.

Lemma c158_output_lemma say F m t old fuel new ms r : source t -> br_pack say fuel m F t old = (new, ms, r) ->
  (r = Ok tt -> exists t' evs, same_tree t t' /\ name_sorted t' /\ web_outcome m None (snapshot (f_now F) [] t') old (new, evs, Ok tt)
                 /\ forall p b, at_path t' p (FFile b) -> kept (f_now F) p (len b))
  /\ (r <> Ok tt -> new = old).
Proof.
  intros HS. unfold br_pack. destruct (br_lists F [] t); cbn [negb]; [|intros [= <- <- <-]; split; [discriminate|reflexivity]].
  destruct (f_opens F); cbn [negb]; [|intros [= <- <- <-]; split; [discriminate|reflexivity]].
  destruct (create_xdvdfs_image fuel m (br_wdev F) (br_fs F (populate t)) ((web_new, O), [])) as [[w evs] [[]|e|p|]] eqn:E; try (intros [= <- <- <-]; split; [discriminate|reflexivity]).
  destruct (f_closes F); [|intros [= <- <- <-]; split; [discriminate|reflexivity]]. intros [= <- <- <-]. split; [intros _|congruence].
  destruct (br_job F m t HS) as (t' & H1 & H2 & H3). destruct (create_settles m F t fuel _ E ltac:(discriminate) (length (dirs [] (snapshot (f_now F) [] t')))) as (fuel' & Hf & E').
  destruct (H3 fuel' Hf) as [(w1 & n1 & evs1 & E1 & H4 & H5)|[(s & e & E1)|(s & E1 & _)]]; rewrite E' in E1; try discriminate. injection E1 as -> <-.
  exists t', evs. split; [exact H1|]. split; [exact H2|]. split; [apply H4|exact H5].
Qed.

Lemma c158_page_lemma say F m t old : source t -> br_lists F [] t = true -> f_opens F = true -> f_closes F = true ->
  (forall p b b', at_path t p (FFile b) -> f_now F p = Some b' -> len b <= len b') ->
  settles (fun fuel => br_pack say fuel m F t old) (fun x => let '(_, ms, r) := x in calm_result r /\ ends_once PackPage ms /\ forall b, exists b', receives b ms b' /\ S_Jobs.shows r (b_state b')).
Proof.
  intros HS H1 H2 H3 Hk. destruct (br_job F m t HS) as (t' & T1 & T2 & T3). exists (S (length (dirs [] (snapshot (f_now F) [] t')))). intros fuel Hf.
  unfold br_pack. rewrite H1, H2, H3. cbn [negb].
  destruct (T3 fuel Hf) as [(w1 & n1 & evs1 & E1 & H4 & H5)|[([w evs] & e & E1)|(s & E1 & p & b & b' & Hb & Hn & Hl)]]; rewrite E1.
  - split; [exact I|]. apply (c142_pack_lemma (E := unit) _ (Ok tt)). left. exists (Ok tt), evs1, (Ok tt). repeat split.
  - split; [exact I|]. apply (c142_pack_lemma (E := unit) _ (Err (say e))). left. exists (Ok tt), evs, (Err (say e)). repeat split.
  - exfalso. specialize (Hk p b b'). assert (len b <= len b') by (apply Hk; [|exact Hn]; destruct (P_Repack.same_at_back t' p _ Hb t T1) as (a & Ha & Q); apply same_file_r in Q; subst; exact Ha). lia.
Qed.

(** After a panic the page stays as it is. *)
Lemma br_stuck say fuel m F t old p b b' : snd (br_pack say fuel m F t old) = Panic p -> is_packing (b_state b) = true ->
  receives b (snd (fst (br_pack say fuel m F t old))) b' -> stuck PackPage b'.
Proof.
  unfold br_pack. destruct (br_lists F [] t); cbn [negb].
  2:{ intros _ Hb HR. apply packing_stuck. eapply said_packing; [|exact Hb|exact HR]. constructor. }
  destruct (f_opens F); cbn [negb].
  2:{ intros _ Hb HR. apply packing_stuck. eapply said_packing; [|exact Hb|exact HR]. repeat constructor. }
  destruct (create_xdvdfs_image fuel m (br_wdev F) (br_fs F (populate t)) ((web_new, O), [])) as [[w evs] [[]|e|q|]]; try discriminate.
  - destruct (f_closes F); [discriminate|]. intros _ Hb HR. apply packing_stuck. eapply said_packing; [|exact Hb|exact HR]. constructor; [exact I|]. apply Forall_app. split; [apply says_progress|repeat constructor].
  - intros _ Hb HR. apply packing_stuck. eapply said_packing; [|exact Hb|exact HR]. cbn [fst snd web_pack_job told]. rewrite app_nil_r. constructor; [exact I|apply says_progress].
Qed.
