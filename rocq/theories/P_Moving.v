(** Sources that change while they are packed (C151). *)
From Verif Require Import M_Base M_Util M_Layout M_Avl M_Sector M_Dirtab M_Read M_Img M_Dev M_Stdfs M_Host M_Moving.
From Verif Require Import S_Avl S_Codec S_Table S_Read S_Img S_Moving.
From Verif Require Import P_Base P_Codec P_Read P_Place P_Dirtab P_Table P_Find P_Map P_Tree P_Tabs P_Disk P_Plan P_Pack P_Run P_Bytes P_Image P_File P_Packed P_Witness P_Geom P_More P_Term P_Xfs P_Compress P_Special P_Inplace.
From Coq Require Import Init.Byte Permutation Sorted Lia.
Local Open Scope N_scope.

(** ** Writes that are cut short *)
Definition shorter (w w' : N * list byte) : Prop := fst w = fst w' /\ exists n, snd w = snd w' ++ fill n x00.
Lemma shorter_covers w w' i : shorter w w' -> covers w' i -> covers w i.
Proof. intros (E & n & En). unfold covers. rewrite E, En, len_app. lia. Qed.
Lemma shorter_len w w' : shorter w w' -> len (snd w') <= len (snd w).
Proof. intros (E & n & En). rewrite En, len_app. lia. Qed.
Lemma shorter_apart l l' : Forall2 shorter l l' -> ForallOrdPairs apart l -> ForallOrdPairs apart l'.
Proof.
  intros H. induction H as [|w w' l l' Hw Hl IH]; intros A; [constructor|]. inversion A as [|? ? A1 A2]; subst. constructor; [|apply IH; exact A2].
  pose proof (shorter_len _ _ Hw) as Hn. destruct Hw as (E & _).
  clear -Hl A1 Hn E. induction Hl as [|x x' l l' Hx Hl IH]; constructor; inversion A1 as [|? ? B1 B2]; subst; auto.
  pose proof (shorter_len _ _ Hx). destruct Hx as (Ex & _). unfold apart in *. lia.
Qed.
Lemma short_get l l' : Forall2 shorter l l' -> ForallOrdPairs apart l -> forall img img',
  (forall i, get img i = get img' i) -> (forall i w, In w l -> covers w i -> get img' i = x00) ->
  forall i, get (writes l img) i = get (writes l' img') i.
Proof.
  intros H. induction H as [|w w' l l' Hw Hl IH]; intros A img img' He Hz i; [apply He|]. inversion A as [|? ? A1 A2]; subst.
  unfold writes in *. cbn [fold_left]. apply IH; auto.
  - intros j. rewrite !write_get. pose proof (shorter_len _ _ Hw) as Hn. pose proof (Hz j w (or_introl eq_refl)) as Hj. unfold covers in Hj.
    destruct Hw as (E & n & En). rewrite <- E. rewrite En, len_app in *. 
    destruct (N.leb_spec (fst w) j); cbn [andb]; [|apply He]. destruct (N.ltb_spec j (fst w + (len (snd w') + len (fill n x00)))) as [L|L].
    + destruct (N.ltb_spec j (fst w + len (snd w'))); [apply get_app_l; lia|]. rewrite get_app_r, get_fill by lia. symmetry. apply Hj. lia.
    + destruct (N.ltb_spec j (fst w + len (snd w'))); [lia|apply He].
  - intros j x Hx Hc. rewrite write_get. rewrite Forall_forall in A1. specialize (A1 x Hx). unfold apart, covers in *.
    pose proof (shorter_len _ _ Hw) as Hn. destruct Hw as (E & _). destruct (N.leb_spec (fst w') j); cbn [andb]; [|apply (Hz j x); [right; exact Hx|exact Hc]].
    destruct (N.ltb_spec j (fst w' + len (snd w'))); [lia|]. apply (Hz j x); [right; exact Hx|exact Hc].
Qed.
Lemma short_len l l' : Forall2 shorter l l' -> forall img img', len img' <= len img -> len (writes l' img') <= len (writes l img).
Proof.
  intros H. induction H as [|w w' l l' Hw Hl IH]; intros img img' Hi; [exact Hi|]. unfold writes in *. cbn [fold_left]. apply IH.
  rewrite !write_len. pose proof (shorter_len _ _ Hw). destruct Hw as (E & _). destruct (N.eqb_spec (len (snd w')) 0), (N.eqb_spec (len (snd w)) 0); lia.
Qed.
Lemma pad_short a b : (forall i, get a i = get b i) -> len b <= len a -> exists n, pad a = pad b ++ fill n x00.
Proof.
  intros Hg Hl. assert (L : len (pad b) <= len (pad a)).
  { unfold pad, padding. rewrite !len_app, !len_fill. destruct (N.ltb_spec 0 (len a mod 65536)), (N.ltb_spec 0 (len b mod 65536)); lia. }
  exists (len (pad a) - len (pad b)). apply get_ext; [rewrite len_app, len_fill; lia|]. intros i Hi. rewrite pad_get, Hg, <- pad_get.
  destruct (N.lt_ge_cases i (len (pad b))) as [C|C]; [rewrite get_app_l by exact C; reflexivity|]. rewrite get_app_r, get_fill by exact C. apply get_past. exact C.
Qed.

(** ** The tree that is packed *)
Lemma fitted_len n b : len (fitted n b) = n.
Proof. unfold fitted. rewrite len_app, len_fill. unfold len. rewrite firstn_length. lia. Qed.
Lemma fitted_whole n b : n <= len b -> fitted n b = firstn (N.to_nat n) b.
Proof. intros H. unfold fitted. replace (n - len b) with 0 by lia. cbn. apply app_nil_r. Qed.

Section Snapshot.
Variable now : path -> option (list byte).
Notation snap := (snapshot now).

Lemma snap_fdir p t : is_fdir (snap p t) = is_fdir t.
Proof. destruct t; reflexivity. Qed.
Lemma snap_at t q s : at_path t q s -> forall p, at_path (snap p t) q (snap (p ++ q) s).
Proof.
  intros H. induction H as [t|cs n t q s Hin H IH]; intros p; [rewrite app_nil_r; constructor|].
  cbn [snapshot]. econstructor; [apply (in_map (fun c => (fst c, snap (p ++ [fst c]) (snd c))) _ _ Hin)|]. cbn [fst snd].
  specialize (IH (p ++ [n])). rewrite <- app_assoc in IH. exact IH.
Qed.
Lemma snap_at_inv t : forall p q s', at_path (snap p t) q s' -> exists s, at_path t q s /\ s' = snap (p ++ q) s.
Proof.
  induction t as [b|cs IH] using ftree_rect'; intros p q s' H.
  - cbn [snapshot] in H. inversion H; subst. exists (FFile b). rewrite app_nil_r. split; [constructor|reflexivity].
  - cbn [snapshot] in H. inversion H as [|cs' n t1 q' s1 Hin H1]; subst; [exists (FDir cs); rewrite app_nil_r; split; [constructor|reflexivity]|].
    apply in_map_iff in Hin as ([n0 t0] & [= <- <-] & Hin). rewrite Forall_forall in IH. destruct (IH _ Hin _ _ _ H1) as (s & A & B).
    exists s. split; [econstructor; eauto|]. rewrite B. rewrite <- app_assoc. reflexivity.
Qed.
Lemma snap_dir t p cs' : at_path (snap [] t) p (FDir cs') -> exists cs, at_path t p (FDir cs) /\ cs' = map (fun c => (fst c, snap (p ++ [fst c]) (snd c))) cs.
Proof. intros H. apply snap_at_inv in H as ([b|cs] & A & E); [discriminate|]. injection E as ->. eauto. Qed.
Lemma snap_file t p b' : at_path (snap [] t) p (FFile b') -> exists b, at_path t p (FFile b) /\ b' = fitted (len b) (match now p with Some x => x | None => [] end).
Proof. intros H. apply snap_at_inv in H as ([b|cs] & A & E); [|discriminate]. injection E as ->. eauto. Qed.
Lemma snap_names p cs : map fst (map (fun c => (fst c, snap (p ++ [fst c]) (snd c))) cs) = map fst cs.
Proof. rewrite map_map. reflexivity. Qed.
Lemma snap_budget t : forall p, budget (snap p t) = budget t.
Proof.
  induction t as [b|cs IH] using ftree_rect'; intros p; cbn [snapshot budget]; [rewrite fitted_len; reflexivity|].
  f_equal; [unfold len; rewrite map_length; reflexivity|]. induction IH as [|c cs Hc _ IH]; [reflexivity|]. cbn [map fold_right snd]. rewrite Hc, IH. reflexivity.
Qed.
Lemma snap_source t : source t -> source (snap [] t).
Proof.
  intros (Ht & HP & H1 & H2). split; [rewrite snap_fdir; exact Ht|]. split; [|split; [|rewrite snap_budget; exact H2]].
  - intros p cs' H. apply snap_dir in H as (cs & A & ->). rewrite snap_names. exact (HP _ _ A).
  - intros p cs' H. apply snap_dir in H as (cs & A & ->). unfold len. rewrite map_length. exact (H1 _ _ A).
Qed.
Lemma snap_presents {D} (fs : fsys D) t : presents fs t -> presents fs (snap [] t).
Proof.
  intros Hp p cs' H. apply snap_dir in H as (cs & A & ->). destruct (Hp _ _ A) as (es & E & F). exists es. split; [exact E|]. clear -F.
  induction F as [|e c es cs (N1 & K) F IH]; constructor; [|exact IH]. split; [exact N1|]. cbn [snd]. destruct (snd c) as [b|cs0]; [|exact K].
  cbn [snapshot]. rewrite fitted_len. exact K.
Qed.

(** ** The run *)
Variable fs : fsys (list byte).
Hypothesis Hfs : forall p b img off size, now p = Some b -> copy_in fs p img 0 off size = (file_write img off (slice b 0 size), Ok (len (slice b 0 size))).
Hypothesis Hno : forall p, now p = None -> forall d i o n k, snd (copy_in fs p d i o n) <> Ok k.

Definition swn (s : step) : list (N * list byte) :=
  match s with SReport _ => [] | SWrite off b => [(off, b)] | SCopy p off size => [(off, slice (match now p with Some b => b | None => [] end) 0 size)] end.
Lemma exec_now t steps : (forall p b, at_path t p (FFile b) -> now p <> None) -> copies_ok t steps -> forall img evs,
  exec file_wdev fs steps (img, evs) = ((writes (flat_map swn steps) img, evs ++ flat_map se steps), Ok tt).
Proof.
  intros Hn. induction steps as [|s steps IH]; intros Hok img evs.
  - cbn. rewrite app_nil_r. reflexivity.
  - inversion Hok as [|? ? Hs Hok']; subst. specialize (IH Hok'). cbn [exec flat_map]. rewrite writes_app, app_assoc. destruct s as [e|off b|p off size]; cbn [exec_step swn se].
    + unfold pbind at 1. unfold report. cbn [fst snd]. rewrite IH. reflexivity.
    + unfold pbind at 1. unfold pwrite. cbn. rewrite app_nil_r. apply IH.
    + destruct Hs as (b & Hb & ->). unfold pbind at 1. unfold pbind at 1. unfold pcopy. cbn [fst snd].
      specialize (Hn _ _ Hb). destruct (now p) as [x|] eqn:Ex; [|congruence]. rewrite (Hfs p x _ _ _ Ex). cbn [map_err pret]. rewrite app_nil_r. apply IH.
Qed.
Lemma swn_shorter t steps : proper t -> (forall p b', at_path (snap [] t) p (FFile b') -> now p <> None) -> copies_ok (snap [] t) steps ->
  Forall2 shorter (flat_map (sw (snap [] t)) steps) (flat_map swn steps).
Proof.
  intros HP Hn Hok. induction Hok as [|s steps Hs Hok IH]; [constructor|]. cbn [flat_map]. apply Forall2_app; [|exact IH].
  destruct s as [e|off b|p off size]; cbn [sw swn]; [constructor| |].
  - constructor; [|constructor]. split; [reflexivity|]. exists 0. cbn. rewrite app_nil_r. reflexivity.
  - constructor; [|constructor]. split; [reflexivity|]. cbn [snd]. destruct Hs as (b' & Hb & ->).
    assert (HP' : proper (snap [] t)) by (intros q cs' H; apply snap_dir in H as (cs & A & ->); rewrite snap_names; exact (HP _ _ A)).
    rewrite (file_bytes_at _ HP' p b' Hb). destruct (snap_file _ _ _ Hb) as (b & Hb0 & ->). rewrite fitted_len. unfold fitted, slice. eexists. reflexivity.
Qed.

Definition now_image (t : ftree) (pls : list placed) (rs : N) : list byte := pad (writes (flat_map swn (all_steps (snap [] t) pls rs)) []).

Lemma now_exists m t fuel s : source t -> presents fs t -> snd (create_xdvdfs_image fuel m file_wdev fs s) = Ok tt -> forall p b, at_path t p (FFile b) -> now p <> None.
Proof. intros HS Hp Hr p b Hat Hn. exact (c140_files fuel m file_wdev fs t p b s HS Hp Hat (Hno p Hn) Hr). Qed.

Lemma now_run m t : source t -> presents fs t -> (forall p b, at_path t p (FFile b) -> now p <> None) ->
  (exists pls rs, laid m (snap [] t) pls rs /\ (forall fuel evs, (length (dirs [] (snap [] t)) < fuel)%nat ->
     create_xdvdfs_image fuel m file_wdev fs ([], evs) = ((now_image t pls rs, evs ++ run_events (snap [] t) pls ++ [EFinishedPacking]), Ok tt))
     /\ forall fs' fuel evs, presents fs' (snap [] t) -> copies fs' (snap [] t) -> (length (dirs [] (snap [] t)) < fuel)%nat ->
        create_xdvdfs_image fuel m file_wdev fs' ([], evs) = ((final (snap [] t) pls rs, evs ++ run_events (snap [] t) pls ++ [EFinishedPacking]), Ok tt))
  \/ (exists e, reason m (snap [] t) e /\ (forall fuel evs, (length (dirs [] (snap [] t)) < fuel)%nat ->
        snd (create_xdvdfs_image fuel m file_wdev fs ([], evs)) = Err (InvalidFileStructureError e))
      /\ forall fs' fuel evs, presents fs' (snap [] t) -> copies fs' (snap [] t) -> (length (dirs [] (snap [] t)) < fuel)%nat ->
        snd (create_xdvdfs_image fuel m file_wdev fs' ([], evs)) = Err (InvalidFileStructureError e)).
Proof.
  intros HS Hp Hn. apply snap_presents in Hp. pose proof (snap_source t HS) as (Ht & HP & Hs).
  assert (Hn' : forall p b, at_path (snap [] t) p (FFile b) -> now p <> None) by (intros p b H; apply snap_file in H as (b0 & H & _); eapply Hn; eauto).
  destruct (pack_run m (snap [] t) HP Hs Ht) as (steps & o & Ho & Hrun). destruct Ho as [pls rs HL|steps e Hr Hc Hh].
  - left. exists pls, rs. split; auto. split; [intros fuel evs Hf; rewrite (Hrun _ _ _ _ _ _ Hp Hf)|intros fs' fuel evs Hp' Hcp Hf; rewrite (Hrun _ _ _ _ _ _ Hp' Hf)]; unfold pbind at 1.
    + rewrite (exec_now (snap [] t)) by (auto; eapply steps_copies; eauto). rewrite steps_events.
      cbn [finish]. unfold pbind at 1. rewrite pad_file. unfold report. cbn [fst snd]. rewrite <- app_assoc. reflexivity.
    + rewrite (exec_file fs' (snap [] t)) by (auto; eapply steps_copies; eauto). rewrite steps_writes, steps_events. fold (body (snap [] t) pls rs).
      cbn [finish]. unfold pbind at 1. rewrite pad_file. unfold report. cbn [fst snd]. rewrite <- app_assoc. reflexivity.
  - right. exists e. split; auto. split; [intros fuel evs Hf; rewrite (Hrun _ _ _ _ _ _ Hp Hf)|intros fs' fuel evs Hp' Hcp Hf; rewrite (Hrun _ _ _ _ _ _ Hp' Hf)]; unfold pbind at 1.
    + rewrite (exec_now (snap [] t)) by auto. reflexivity.
    + rewrite (exec_file fs' (snap [] t)) by auto. reflexivity.
Qed.

Lemma now_result m t fuel evs img evs' : source t -> presents fs t -> create_xdvdfs_image fuel m file_wdev fs ([], evs) = ((img, evs'), Ok tt) ->
  (forall p b, at_path t p (FFile b) -> now p <> None) /\ exists pls rs, laid m (snap [] t) pls rs /\ img = now_image t pls rs /\ packs m (snap [] t) (final (snap [] t) pls rs).
Proof.
  intros HS Hp Hrun. assert (Hn : forall p b, at_path t p (FFile b) -> now p <> None) by (apply (now_exists m t fuel ([], evs) HS Hp); rewrite Hrun; reflexivity).
  split; [exact Hn|]. pose proof (create_more m file_wdev fs fuel (fuel + S (length (dirs [] (snap [] t)))) _ _ _ Hrun ltac:(discriminate) ltac:(lia)) as R.
  pose proof (snap_source t HS) as (_ & HP & _).
  destruct (now_run m t HS Hp Hn) as [(pls & rs & HL & A & B)|(e & _ & A & _)].
  - exists pls, rs. split; [exact HL|]. rewrite A in R by lia. injection R as <- _. split; [reflexivity|].
    exists (std_fs (snap [] t)), (S (length (dirs [] (snap [] t)))), [], ([] ++ run_events (snap [] t) pls ++ [EFinishedPacking]).
    split; [apply std_presents; exact HP|]. split; [apply std_copies; exact HP|]. apply B; [apply std_presents; exact HP|apply std_copies; exact HP|lia].
  - specialize (A (fuel + S (length (dirs [] (snap [] t))))%nat evs ltac:(lia)). rewrite R in A. discriminate.
Qed.

Lemma now_prefix m t pls rs : source t -> (forall p b, at_path t p (FFile b) -> now p <> None) -> laid m (snap [] t) pls rs ->
  Forall2 shorter (all_writes (snap [] t) pls rs) (flat_map swn (all_steps (snap [] t) pls rs))
  /\ exists n, final (snap [] t) pls rs = now_image t pls rs ++ fill n x00.
Proof.
  intros HS Hn HL. pose proof (snap_source t HS) as (_ & HP' & _). destruct HS as (_ & HP & _).
  assert (Hn' : forall p b, at_path (snap [] t) p (FFile b) -> now p <> None) by (intros p b H; apply snap_file in H as (b0 & H & _); eapply Hn; eauto).
  pose proof (swn_shorter t (all_steps (snap [] t) pls rs) HP Hn' (steps_copies m _ pls rs HP' HL)) as F. rewrite steps_writes in F. fold (all_writes (snap [] t) pls rs) in F.
  split; [exact F|]. unfold final, now_image, body. fold (all_writes (snap [] t) pls rs). apply pad_short.
  - apply short_get; auto; [exact (wl_apart m _ pls rs HP' HL)|]. intros i w _ _. apply get_past. rewrite (@len_nil byte). lia.
  - apply short_len; [exact F|]. lia.
Qed.

Lemma c151_prefix_lemma m t fuel evs img evs' : source t -> presents fs t -> create_xdvdfs_image fuel m file_wdev fs ([], evs) = ((img, evs'), Ok tt) ->
  (forall p b, at_path t p (FFile b) -> now p <> None) /\ exists full n, packs m (snap [] t) full /\ full = img ++ fill n x00.
Proof.
  intros HS Hp Hrun. destruct (now_result m t fuel evs img evs' HS Hp Hrun) as (Hn & pls & rs & HL & -> & Hpk). split; [exact Hn|].
  destruct (now_prefix m t pls rs HS Hn HL) as (_ & n & E). exists (final (snap [] t) pls rs), n. auto.
Qed.

(** Nothing became shorter. *)
Lemma now_copies t : source t -> (forall p b, at_path t p (FFile b) -> kept now p (len b)) -> copies fs (snap [] t).
Proof.
  intros _ Hk p b' img off Hb. destruct (snap_file _ _ _ Hb) as (b & Hb0 & ->). destruct (Hk _ _ Hb0) as (x & Ex & Hx). rewrite Ex, fitted_len, (Hfs p x _ _ _ Ex).
  rewrite fitted_whole by exact Hx. unfold slice. change (skipn (N.to_nat 0) x) with x. replace (len (firstn (N.to_nat (len b)) x)) with (len b); [reflexivity|].
  unfold len in *. rewrite firstn_length. lia.
Qed.
Lemma c151_whole_lemma m t fuel evs img evs' : source t -> presents fs t -> (forall p b, at_path t p (FFile b) -> kept now p (len b)) ->
  create_xdvdfs_image fuel m file_wdev fs ([], evs) = ((img, evs'), Ok tt) -> packs m (snap [] t) img.
Proof.
  intros HS Hp Hk Hrun. exists fs, fuel, evs, evs'. split; [apply snap_presents; exact Hp|]. split; [apply now_copies; assumption|exact Hrun].
Qed.

(** Whether the run succeeds does not depend on what is in the files. *)
Lemma c151_result_lemma m t : source t -> presents fs t -> (forall p b, at_path t p (FFile b) -> now p <> None) ->
  exists n r, forall fuel evs, (n <= fuel)%nat -> snd (create_xdvdfs_image fuel m file_wdev fs ([], evs)) = r /\ snd (create_xdvdfs_image fuel m file_wdev (std_fs (snap [] t)) ([], evs)) = r.
Proof.
  intros HS Hp Hn. pose proof (snap_source t HS) as (_ & HP & _). exists (S (length (dirs [] (snap [] t)))).
  destruct (now_run m t HS Hp Hn) as [(pls & rs & HL & A & B)|(e & _ & A & B)]; [exists (Ok tt)|exists (Err (InvalidFileStructureError e))]; intros fuel evs Hf.
  - rewrite A, B by (try lia; try (apply std_presents; exact HP); apply std_copies; exact HP). split; reflexivity.
  - split; [apply A; lia|apply B; try lia; [apply std_presents; exact HP|apply std_copies; exact HP]].
Qed.

(** ** What can be read *)
Lemma table_written m t pls rs q off b cs : source t -> laid m (snap [] t) pls rs -> In (q, (off, b)) (wl (snap [] t) pls) -> at_path (snap [] t) q (FDir cs) ->
  In (off, b) (flat_map swn (all_steps (snap [] t) pls rs)).
Proof.
  intros HS HL Hin Hat. pose proof (snap_source t HS) as (_ & HP & _). apply wl_in in Hin as [(pl & Hpl & -> & E)|(pl & e & Hpl & He & Hd & -> & E)].
  - injection E as -> ->. apply in_flat_map. exists (SWrite (pl_sector pl * SECTOR_SIZE) (entry_table (pl_table pl))). split; [|left; reflexivity].
    unfold all_steps. apply in_or_app. right. apply in_or_app. left. apply in_concat. exists (pl_steps pl). split; [apply in_map; exact Hpl|]. right. left. reflexivity.
  - destruct (listing_child m _ pls rs HL pl e Hpl He) as (s' & x & Hc & _ & _ & Hd' & Hk). rewrite Hd in Hd'. rewrite <- Hd' in Hk.
    pose proof (at_path_snoc _ _ _ _ _ (pl_at m _ pls rs HL pl Hpl) Hc) as Hat'. pose proof (at_same _ _ _ _ HP Hat Hat') as <-. discriminate.
Qed.
Lemma file_written m t pls rs p b x : source t -> laid m (snap [] t) pls rs -> at_path t p (FFile b) -> now p = Some x -> len b <= len x -> 0 < len b ->
  forall s, In (p, (s, len b)) (regs rs pls) -> In (2048 * s, firstn (N.to_nat (len b)) x) (flat_map swn (all_steps (snap [] t) pls rs)).
Proof.
  intros HS HL Hat Hx Hl Hb s Hr. pose proof (snap_source t HS) as (Ht & HP & _).
  pose proof (snap_at t p _ Hat []) as Hat'. cbn [app snapshot] in Hat'. rewrite Hx in Hat'. destruct Hr as [E|Hr].
  { injection E as E _ _. assert (p = []) as -> by (symmetry; exact E). assert (t = FFile b) as -> by (inversion Hat; reflexivity). discriminate. }
  apply in_map_iff in Hr as ([pp e] & E & Hr). cbn [fst snd] in E. injection E as E1 E2 E3. apply all_entries_in in Hr as (pl & Hpl & Epl & He).
  destruct (listing_child m _ pls rs HL pl e Hpl He) as (s' & y & Hc & Hi & Hsz & Hd & Hk).
  pose proof (at_path_snoc _ _ _ _ _ (pl_at m _ pls rs HL pl Hpl) Hc) as Hat2. rewrite Epl in Hat2. rewrite E1 in Hat2.
  pose proof (at_same _ _ _ _ HP Hat' Hat2) as <-. cbn [is_fdir] in Hk. rewrite <- Hk in Hd.
  apply in_flat_map. exists (SCopy p (l_sector e * 2048) (l_size e)). split.
  - unfold all_steps. apply in_or_app. right. apply in_or_app. left. apply in_concat. exists (pl_steps pl). split; [apply in_map; exact Hpl|].
    unfold pl_steps. right; right. rewrite <- E1, <- Epl. apply (P_Compress.listing_copy (pl_path pl)); auto.
  - cbn [swn]. rewrite Hx, E3, E2. left. rewrite N.mul_comm. reflexivity.
Qed.

Lemma c151_found_lemma m t fuel evs img evs' : source t -> presents fs t -> create_xdvdfs_image fuel m file_wdev fs ([], evs) = ((img, evs'), Ok tt) ->
  exists v, read_volume (file_dev img) = Ok v /\
  forall p t' path, at_path t p t' -> p <> [] -> path_of p path ->
  exists e, returns (fun fuel => walk_path fuel (file_dev img) (v_root v) path) (Ok e) /\ name_str e = last p [] /\ is_dir e = is_fdir t'
   /\ forall b, t' = FFile b -> r_size (region_of e) = len b /\ exists x, now p = Some x
      /\ (read_data_all (file_dev img) (d_dirent (e_node e)) = Ok (fitted (len b) x) \/ (exists y, read_data_all (file_dev img) (d_dirent (e_node e)) = Err y))
      /\ (len b <= len x -> read_data_all (file_dev img) (d_dirent (e_node e)) = Ok (firstn (N.to_nat (len b)) x)).
Proof.
  intros HS Hp Hrun. destruct (now_result m t fuel evs img evs' HS Hp Hrun) as (Hn & pls & rs & HL & -> & _).
  destruct (now_prefix m t pls rs HS Hn HL) as (F & z & Ez). pose proof (snap_source t HS) as (Ht & HP & _).
  pose proof (shorter_apart _ _ F (wl_apart m _ pls rs HP HL)) as HA.
  set (img := now_image t pls rs) in *. set (l' := flat_map swn (all_steps (snap [] t) pls rs)) in *.
  assert (Hview : forall w, In w l' -> snd w <> [] -> view (file_dev img) (fst w) (snd w)).
  { intros w Hw Hne o n Hon. unfold img, now_image, pad. apply file_dev_app. apply (writes_view l' [] w HA Hw Hne o n Hon). }
  assert (Hd : forall q off b cs, In (q, (off, b)) (wl (snap [] t) pls) -> at_path (snap [] t) q (FDir cs) -> b <> [] -> view (file_dev img) off b).
  { intros q off b cs Hin Hat Hne. apply (Hview (off, b)); [eapply table_written; eauto|exact Hne]. }
  assert (Hv : exists v, read_volume (file_dev img) = Ok v /\ v_root v = mkRegion 33 rs).
  { destruct (c25_lemma _ (file_lawful img) (file_calm _)) as (_ & H & _). eapply H.
    - assert (Hin : In (65536, desc_bytes rs) l') by (apply in_flat_map; exists (SWrite 65536 (desc_bytes rs)); split; [apply in_or_app; right; apply in_or_app; right; left; reflexivity|left; reflexivity]).
      pose proof (Hview _ Hin ltac:(discriminate) 0 2048) as V. cbn [fst snd] in V. rewrite N.add_0_r in V. rewrite V by (rewrite desc_len; lia). reflexivity.
    - apply desc_descriptor. pose proof (ld_rs _ _ _ _ HL). unfold u32_modulus. lia. }
  destruct Hv as (v & Hv & Hroot). exists v. split; [exact Hv|]. rewrite Hroot. intros p t' path Hat Hne Hpath.
  pose proof (snap_at t p t' Hat []) as Hat'. cbn [app] in Hat'.
  destruct (table_region m (snap [] t) pls rs HP HL (file_dev img) Hd (snap [] t) p _ Hat' Hne [] 33 rs (at_here _) (or_introl eq_refl)) as (e & L & E1 & E2 & E3). cbn [app] in E3.
  exists e. split; [exact (c31_lemma _ _ _ _ _ (file_lawful img) Hpath L)|]. split; [exact E1|]. split; [rewrite E2; apply snap_fdir|].
  intros b ->. cbn [snapshot] in Hat'. destruct (now p) as [x|] eqn:Ex; [|destruct (Hn _ _ Hat Ex)].
  pose proof (image_tree m (snap [] t) pls rs HP HL (file_dev (final (snap [] t) pls rs)) (final_view m (snap [] t) pls rs HP HL) (FFile (fitted (len b) x)) p (r_sector (region_of e)) (r_size (region_of e)) Hat' E3) as HH.
  replace (mkRegion (r_sector (region_of e)) (r_size (region_of e))) with (region_of e) in HH by (destruct (region_of e); reflexivity).
  destruct (read_held _ _ _ HH) as (S1 & S2). rewrite fitted_len in S1. split; [exact S1|]. exists x. split; [reflexivity|].
  destruct (c27_lemma (file_dev img) (d_dirent (e_node e))) as (A & B & C). fold (region_of e) in A, B, C. rewrite S1 in A, B, C.
  destruct (N.eq_0_gt_0_cases (len b)) as [Z|Z].
  { rewrite (A Z), Z. split; [left; f_equal; symmetry; apply nil_len; apply fitted_len|]. intros _. reflexivity. }
  inversion HH as [? ? _ Hfull|]; subst. specialize (Hfull ltac:(intros E; apply (f_equal (@len byte)) in E; rewrite fitted_len, (@len_nil byte) in E; lia)). rewrite fitted_len in Hfull.
  split.
  - destruct (file_dev img (2048 * r_sector (region_of e)) (len b)) as [b1|y|y|] eqn:Ed.
    + left. rewrite (B b1 Z eq_refl). rewrite Ez, (file_dev_app _ _ _ _ _ Ed) in Hfull. injection Hfull as ->. reflexivity.
    + right. exists (IOError y). apply C; [exact Z|reflexivity].
    + unfold file_dev in Ed. destruct (len b =? 0); [discriminate|]. destruct (_ <=? _); discriminate.
    + unfold file_dev in Ed. destruct (len b =? 0); [discriminate|]. destruct (_ <=? _); discriminate.
  - intros Hl. apply B; [exact Z|]. rewrite S1 in E3. pose proof (file_written m t pls rs p b x HS HL Hat Ex Hl Z _ E3) as Hw.
    assert (Ll : len (firstn (N.to_nat (len b)) x) = len b) by (unfold len in *; rewrite firstn_length; lia).
    pose proof (Hview _ Hw ltac:(cbn [snd]; intros E; rewrite E, (@len_nil byte) in Ll; lia) 0 (len b)) as V. cbn [fst snd] in V. rewrite N.add_0_r in V. rewrite V by lia.
    f_equal. rewrite <- Ll at 2. pose proof (slice_app_l (firstn (N.to_nat (len b)) x) []) as X. rewrite app_nil_r in X. exact X.
Qed.
End Snapshot.

(** ** On the host *)
Section Host.
Variables (before later : path -> host) (ls : lister) (root : list str).
Notation fs := (moving_fs before later ls root).
Notation now := (contents later root).
Lemma moving_some p b img off size : now p = Some b -> copy_in fs p img 0 off size = (file_write img off (slice b 0 size), Ok (len (slice b 0 size))).
Proof. unfold contents. cbn [moving_fs copy_in]. unfold host_copy_file. destruct (later p (root ++ p)) as [[|x]|]; try discriminate. intros [= ->]. reflexivity. Qed.
Lemma moving_none p : now p = None -> forall d i o n k, snd (copy_in fs p d i o n) <> Ok k.
Proof. unfold contents. cbn [moving_fs copy_in]. unfold host_copy_file. intros H d i o n k. destruct (later p (root ++ p)) as [[|x]|]; try discriminate. Qed.

Definition c151_prefix_host m t fuel evs img evs' := c151_prefix_lemma now fs moving_some moving_none m t fuel evs img evs'.
Definition c151_whole_host m t fuel evs img evs' := c151_whole_lemma now fs moving_some moving_none m t fuel evs img evs'.
Definition c151_result_host m t := c151_result_lemma now fs moving_some m t.
Definition c151_found_host m t fuel evs img evs' := c151_found_lemma now fs moving_some moving_none m t fuel evs img evs'.
End Host.

(** ** A concrete source: A grows and B loses its bytes while the directory is packed *)
Definition two_files (a b : list byte) : host := fun q =>
  match q with [] => Some HDir | [n] => if str_eqb n [65] then Some (HFile a) else if str_eqb n [66] then Some (HFile b) else None | _ => None end.
Definition two_run (a b a' b' : list byte) : (list byte * list event) * res werr unit :=
  create_xdvdfs_image 5 Debug file_wdev (moving_fs (fun _ => two_files a b) (fun _ => two_files a' b') (fun _ => [[65]; [66]]) []) ([], []).
Definition two_read (img : list byte) (n : N) : res rerr (N * list byte) :=
  let* v := read_volume (file_dev img) in let* e := walk_path 5 (file_dev img) (v_root v) [n] in
  let* b := read_data_all (file_dev img) (d_dirent (e_node e)) in Ok (r_size (region_of e), b).
Lemma run_parts {A B C} (x : (A * B) * C) r : snd x = r -> x = ((fst (fst x), snd (fst x)), r).
Proof. destruct x as [[a b] c]. cbn. intros ->. reflexivity. Qed.
Lemma two_refutes a b a' b' n e : snd (two_run a b a' b') = Ok tt -> two_read (fst (fst (two_run a b a' b'))) 65 = Ok (n, a) -> two_read (fst (fst (two_run a b a' b'))) 66 = Err (IOError e) ->
  exists a b a' b' img evs, two_run a b a' b' = ((img, evs), Ok tt) /\ (exists n, two_read img 65 = Ok (n, a)) /\ exists e, two_read img 66 = Err (IOError e).
Proof.
  intros E1 E2 E3. exists a, b, a', b', (fst (fst (two_run a b a' b'))), (snd (fst (two_run a b a' b'))).
  split; [exact (run_parts _ _ E1)|]. split; [exists n; exact E2|exists e; exact E3].
Qed.
