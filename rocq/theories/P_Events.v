(** Progress events (C23). *)
From Verif Require Import M_Base M_Util M_Layout M_Avl M_Sector M_Dirtab M_Read M_Img.
From Verif Require Import S_Avl S_Codec S_Table S_Read S_Img.
From Verif Require Import P_Base P_Codec P_Place P_Dirtab P_Table P_Find P_Read P_Witness P_Map P_Tree P_Tabs P_Scan P_Disk P_Plan P_Pack P_Run P_Bytes P_Image P_File P_Back P_Packed P_Param P_More.
From Coq Require Import Init.Byte Permutation Sorted Lia.
Local Open Scope N_scope.

(** ** Nothing but the end of a successful run reports [EFinishedPacking] *)
Definition quiet {D A} (x : prog D A) : Prop :=
  forall s s' r, x s = (s', r) -> exists new, snd s' = snd s ++ new /\ ~ In EFinishedPacking new.

Lemma quiet_same {D A} (x : prog D A) : (forall s s' r, x s = (s', r) -> snd s' = snd s) -> quiet x.
Proof. intros H s s' r E. exists []. rewrite app_nil_r. split; [eapply H; eauto|intros []]. Qed.
Lemma quiet_lift {D A} (r : res werr A) : quiet (@plift D A r).
Proof. apply quiet_same. intros s s' r' [= <- _]. reflexivity. Qed.
Lemma quiet_ret {D A} (a : A) : quiet (@pret D A a).
Proof. apply quiet_same. intros s s' r' [= <- _]. reflexivity. Qed.
Lemma quiet_report {D} e : e <> EFinishedPacking -> quiet (@report D e).
Proof. intros He s s' r [= <- _]. exists [e]. cbn. split; [reflexivity|]. intros [H|[]]. auto. Qed.
Lemma quiet_write {D} (W : wdev D) off b : quiet (pwrite W off b).
Proof. apply quiet_same. intros s s' r. unfold pwrite. destruct (dev_write W (fst s) off b). intros [= <- _]. reflexivity. Qed.
Lemma quiet_len {D} (W : wdev D) : quiet (M_Img.plen W).
Proof. apply quiet_same. intros s s' r. unfold M_Img.plen. destruct (dev_len W (fst s)). intros [= <- _]. reflexivity. Qed.
Lemma quiet_copy {D} (fs : fsys D) p off n : quiet (pcopy fs p off n).
Proof. apply quiet_same. intros s s' r. unfold pcopy. destruct (copy_in fs p (fst s) 0 off n). intros [= <- _]. reflexivity. Qed.
Lemma quiet_bind {D A B} (x : prog D A) (k : A -> prog D B) : quiet x -> (forall a, quiet (k a)) -> quiet (pbind x k).
Proof.
  intros Hx Hk s s' r. unfold pbind. destruct (x s) as [s1 r1] eqn:E. destruct (Hx _ _ _ E) as (n1 & E1 & N1). destruct r1 as [a|e|q|].
  - intros H. destruct (Hk a _ _ _ H) as (n2 & E2 & N2). exists (n1 ++ n2). rewrite E2, E1, <- app_assoc. split; [reflexivity|].
    intros Hin. apply in_app_or in Hin. tauto.
  - intros [= <- _]. eauto.
  - intros [= <- _]. eauto.
  - intros [= <- _]. eauto.
Qed.

Lemma quiet_dir_loop {D} (fs : fsys D) fuel : forall dirs out, quiet (dir_tree_loop fuel fs dirs out).
Proof.
  induction fuel as [|fuel IH]; intros [|p dirs] out; cbn [dir_tree_loop]; try apply quiet_ret; try apply quiet_lift.
  apply quiet_bind; [apply quiet_lift|]. intros l. apply quiet_bind; [apply quiet_report; discriminate|]. intros _. apply IH.
Qed.
Lemma quiet_listing {D} (fs : fsys D) p listing : forall secs, quiet (add_listing fs p listing secs).
Proof.
  induction listing as [|e listing IH]; intros secs; cbn [add_listing]; [apply quiet_ret|]. apply quiet_bind; [apply quiet_report; discriminate|].
  intros _. destruct (l_is_dir e); [apply IH|]. apply quiet_bind; [apply quiet_copy|]. intros _. apply IH.
Qed.
Lemma quiet_tables {D} m (W : wdev D) (fs : fsys D) tables : forall nf secs, quiet (add_tables m W fs tables nf secs).
Proof.
  induction tables as [|[p w] tables IH]; intros nf secs; cbn [add_tables]; [apply quiet_ret|].
  apply quiet_bind; [apply quiet_lift|]. intros sec. apply quiet_bind; [apply quiet_lift|]. intros [tb nf'].
  apply quiet_bind; [apply quiet_report; discriminate|]. intros _. apply quiet_bind; [apply quiet_write|]. intros _.
  apply quiet_bind; [apply quiet_listing|]. intros secs'. apply IH.
Qed.
Lemma quiet_pad {D} (W : wdev D) : quiet (pad_image W).
Proof.
  unfold pad_image. apply quiet_bind; [apply quiet_len|]. intros n. destruct (0 <? n mod (32 * 2048)); [apply quiet_write|apply quiet_ret].
Qed.
Lemma quiet_tabs {D} m dt : quiet (@create_dirent_tables D m dt).
Proof.
  unfold create_dirent_tables. apply quiet_bind; [apply quiet_lift|]. intros [tb n]. apply quiet_bind; [apply quiet_report; discriminate|].
  intros _. apply quiet_bind; [apply quiet_report; discriminate|]. intros _. apply quiet_ret.
Qed.

Lemma ends_loud {D A} (x : prog D A) (k : A -> prog D unit) : quiet x ->
  (forall a s s' r, k a s = (s', r) -> exists new, snd s' = snd s ++ new /\
      (r = Ok tt /\ (exists new', new = new' ++ [EFinishedPacking] /\ ~ In EFinishedPacking new') \/ r <> Ok tt /\ ~ In EFinishedPacking new)) ->
  forall s s' r, pbind x k s = (s', r) -> exists new, snd s' = snd s ++ new /\
      (r = Ok tt /\ (exists new', new = new' ++ [EFinishedPacking] /\ ~ In EFinishedPacking new') \/ r <> Ok tt /\ ~ In EFinishedPacking new).
Proof.
  intros Hx Hk s s' r. unfold pbind. destruct (x s) as [s1 r1] eqn:E. destruct (Hx _ _ _ E) as (n1 & E1 & N1).
  assert (Hstop : forall r0 : res werr unit, r0 <> Ok tt -> (s1, r0) = (s', r) -> exists new, snd s' = snd s ++ new /\
      (r = Ok tt /\ (exists new', new = new' ++ [EFinishedPacking] /\ ~ In EFinishedPacking new') \/ r <> Ok tt /\ ~ In EFinishedPacking new)).
  { intros r0 Hr [= <- <-]. exists n1. split; [exact E1|]. right. auto. }
  destruct r1 as [a|e|q|]; [|eapply Hstop; discriminate|eapply Hstop; discriminate|eapply Hstop; discriminate].
  intros H. destruct (Hk a _ _ _ H) as (n2 & E2 & H2). exists (n1 ++ n2). rewrite E2, E1, <- app_assoc. split; [reflexivity|].
  destruct H2 as [(-> & n' & -> & N2)|(Hr & N2)].
  - left. split; auto. exists (n1 ++ n'). rewrite app_assoc. split; auto. intros Hin. apply in_app_or in Hin. tauto.
  - right. split; auto. intros Hin. apply in_app_or in Hin. tauto.
Qed.

Lemma finished_lemma D fuel m (W : wdev D) (fs : fsys D) d evs d' evs' r :
  create_xdvdfs_image fuel m W fs (d, evs) = ((d', evs'), r) ->
  exists new, evs' = evs ++ new /\
    (r = Ok tt /\ (exists new', new = new' ++ [EFinishedPacking] /\ ~ In EFinishedPacking new')
     \/ r <> Ok tt /\ ~ In EFinishedPacking new).
Proof.
  intros H. change evs' with (snd (d', evs')). change evs with (snd (d, evs)). revert H. generalize (d, evs) (d', evs') r. clear.
  unfold create_xdvdfs_image. apply ends_loud; [apply quiet_dir_loop|]. intros dt. apply ends_loud; [apply quiet_tabs|]. intros tb.
  apply ends_loud; [apply quiet_lift|]. intros [p w]. apply ends_loud; [apply quiet_lift|]. intros rs. apply ends_loud; [apply quiet_lift|].
  intros [nf rsec]. apply ends_loud; [apply quiet_tables|]. intros _. apply ends_loud; [apply quiet_write|]. intros _.
  apply ends_loud; [apply quiet_pad|]. intros _ s s' r H. injection H as <- <-. exists [EFinishedPacking]. split; [reflexivity|].
  left. split; auto. exists []. split; [reflexivity|intros []].
Qed.

(** ** The events of a successful run *)
Section Events.
Variables (m : build) (t : ftree) (pls : list placed) (rs : N).
Hypothesis HP : proper t.
Hypothesis HL : laid m t pls rs.
Notation d := (file_dev (final t pls rs)).
Notation root := (mkRegion 33 rs).

Lemma in_placed e : In e (concat (map pl_events pls)) <->
  (exists pl, In pl pls /\ e = EDirAdded (pl_path pl) (pl_sector pl))
  \/ (exists p le, In (p, le) (all_entries pls) /\ e = EFileAdded (from_base p (l_name le)) (l_sector le)).
Proof.
  rewrite in_concat. split.
  - intros (l & H1 & H2). apply in_map_iff in H1 as (pl & <- & Hpl). destruct H2 as [<-|H2]; [left; eauto|].
    right. unfold listing_events in H2. apply in_map_iff in H2 as (le & <- & Hle). exists (pl_path pl), le. split; auto. apply all_entries_in. eauto.
  - intros [(pl & Hpl & ->)|(p & le & Hin & ->)].
    + exists (pl_events pl). split; [apply in_map; auto|left; auto].
    + apply all_entries_in in Hin as (pl & Hpl & <- & Hle). exists (pl_events pl). split; [apply in_map; auto|]. right. unfold listing_events. apply in_map_iff. eauto.
Qed.

Lemma in_first e : In e (first_events t) <-> (exists q cs, at_path t q (FDir cs) /\ e = EDiscoveredDirectory (len cs))
  \/ e = EFileCount (entries (dirs [] t)) \/ e = EDirCount (len (dirs [] t)).
Proof.
  unfold first_events. rewrite in_app_iff, in_map_iff. cbn [In]. split.
  - intros [([q cs] & <- & H)|[<-|[<-|[]]]]; auto. left. exists q, cs. split; auto. apply dirs_root. exact H.
  - intros [(q & cs & H & ->)|[->| ->]]; auto. left. exists (q, cs). split; auto. apply dirs_root. exact H.
Qed.

Lemma in_run e : In e (run_events t pls) <->
  (exists q cs, at_path t q (FDir cs) /\ e = EDiscoveredDirectory (len cs))
  \/ e = EFileCount (entries (dirs [] t)) \/ e = EDirCount (len (dirs [] t))
  \/ (exists pl, In pl pls /\ e = EDirAdded (pl_path pl) (pl_sector pl))
  \/ (exists p le, In (p, le) (all_entries pls) /\ e = EFileAdded (from_base p (l_name le)) (l_sector le)).
Proof. unfold run_events. rewrite in_app_iff, in_first, in_placed. tauto. Qed.

Lemma filter_app {A} (f : A -> bool) a b : filter f (a ++ b) = filter f a ++ filter f b.
Proof. induction a as [|x a IH]; cbn; auto. destruct (f x); cbn; rewrite IH; reflexivity. Qed.
Lemma filter_none {A} (f : A -> bool) l : (forall x, In x l -> f x = false) -> filter f l = [].
Proof. induction l as [|x l IH]; cbn; intros H; auto. rewrite (H x) by auto. apply IH. auto. Qed.
Lemma filter_all {A} (f : A -> bool) l : (forall x, In x l -> f x = true) -> filter f l = l.
Proof. induction l as [|x l IH]; cbn; intros H; auto. rewrite (H x) by auto. f_equal. apply IH. auto. Qed.

Lemma first_none f : (forall n, f (EDiscoveredDirectory n) = false) -> (forall n, f (EFileCount n) = false) -> (forall n, f (EDirCount n) = false) ->
  filter f (first_events t) = [].
Proof. intros H1 H2 H3. apply filter_none. intros e He. apply in_first in He as [(q & cs & _ & ->)|[->| ->]]; auto. Qed.

Lemma dir_events : filter is_dir_added (run_events t pls) = map (fun pl => EDirAdded (pl_path pl) (pl_sector pl)) pls.
Proof.
  unfold run_events. rewrite filter_app, first_none by reflexivity. cbn [app]. generalize pls. induction pls0 as [|pl l IH]; cbn; auto.
  rewrite filter_app, IH. cbn. f_equal. rewrite filter_none; [reflexivity|]. intros e He. unfold listing_events in He. apply in_map_iff in He as (le & <- & _). reflexivity.
Qed.
Lemma file_events : filter is_file_added (run_events t pls) = map (fun x => EFileAdded (from_base (fst x) (l_name (snd x))) (l_sector (snd x))) (all_entries pls).
Proof.
  unfold run_events. rewrite filter_app, first_none by reflexivity. cbn [app]. unfold all_entries. generalize pls. induction pls0 as [|pl l IH]; cbn; auto.
  rewrite filter_app, IH, map_app. cbn. f_equal. unfold pl_entries, listing_events. rewrite map_map. cbn [fst snd]. apply filter_all.
  intros e He. apply in_map_iff in He as (le & <- & _). reflexivity.
Qed.

Lemma dir_number : len (dirs [] t) = len pls.
Proof.
  unfold len. f_equal. pose proof (Permutation_length (ld_paths _ _ _ _ HL)) as H. rewrite !map_length in H. symmetry. exact H.
Qed.

Lemma listing_number pl : In pl pls -> len (file_listing (pl_table pl)) = len (cs_at t (pl_path pl)).
Proof.
  intros Hpl. pose proof (ld_ok _ _ _ _ HL) as HF. rewrite Forall_forall in HF. destruct (HF _ Hpl) as [Hat (xs & D & sz & F1 & F2 & F3 & F4 & _)].
  rewrite F4. rewrite <- (itemized_len _ _ _ F1). unfold len. rewrite map_length. f_equal.
  rewrite <- (Permutation_length F2), map_length. apply Permutation_length, preorder_perm.
Qed.

Lemma entries_perm a b : Permutation a b -> entries a = entries b.
Proof. induction 1; cbn [entries fold_right] in *; unfold entries in *; cbn [fold_right]; try lia. Qed.

Lemma entry_number : entries (dirs [] t) = len (all_entries pls).
Proof.
  assert (Hd : Permutation (dirs [] t) (map (fun pl => (pl_path pl, cs_at t (pl_path pl))) pls)).
  { assert (E : dirs [] t = map (fun q => (q, cs_at t q)) (map fst (dirs [] t))).
    { rewrite map_map. rewrite <- (map_id (dirs [] t)) at 1. apply map_ext_in. intros [q cs] H. cbn [fst]. f_equal. symmetry. apply cs_at_eq; auto. apply dirs_root. exact H. }
    rewrite E. rewrite <- (ld_paths _ _ _ _ HL), map_map. reflexivity. }
  rewrite (entries_perm _ _ Hd). assert (H : forall pl, In pl pls -> len (file_listing (pl_table pl)) = len (cs_at t (pl_path pl))) by (intros pl; apply listing_number).
  revert H. unfold all_entries. generalize pls. clear. induction pls as [|pl l IH]; intros H; [reflexivity|].
  cbn [map concat]. rewrite len_app, <- IH by (intros pl' H'; apply H; right; auto). cbn. f_equal.
  rewrite <- H by (left; auto). unfold pl_entries, len. rewrite map_length. reflexivity.
Qed.

Lemma dir_event p s : In (EDirAdded p s) (run_events t pls) <-> exists cs r, at_path t p (FDir cs) /\ region_at d root p r /\ r_sector r = s.
Proof.
  rewrite in_run. split.
  - intros [(q & cs & _ & H)|[H|[H|[(pl & Hpl & H)|(q & le & _ & H)]]]]; try discriminate. injection H as -> ->.
    destruct (ld_from _ _ _ _ HL pl Hpl) as (n & Hn). exists (cs_at t (pl_path pl)), (mkRegion (pl_sector pl) n).
    pose proof (pl_at m t pls rs HL pl Hpl) as Hat. ssplit; auto. eapply reg_region; eauto.
  - intros (cs & r & Hat & Hr & <-). right; right; right; left. destruct (pl_exists m t pls rs HL p cs Hat) as (pl & Hpl & <-).
    exists pl. split; auto. pose proof (region_reg m t pls rs HP HL _ _ _ Hat Hr) as Hin. destruct (ld_from _ _ _ _ HL pl Hpl) as (n & Hn).
    pose proof (reg_fun m t pls rs HP HL _ _ _ Hin Hn) as E. injection E as -> _. reflexivity.
Qed.

Lemma file_event p s : In (EFileAdded p s) (run_events t pls) <-> p <> [] /\ exists t' r, at_path t p t' /\ region_at d root p r /\ r_sector r = s.
Proof.
  rewrite in_run. split.
  - intros [(q & cs & _ & H)|[H|[H|[(pl & Hpl & H)|(q & le & Hin & H)]]]]; try discriminate. injection H as -> ->.
    split; [unfold from_base; destruct q; discriminate|]. pose proof Hin as Hin'. apply all_entries_in in Hin as (pl & Hpl & <- & Hle).
    destruct (listing_child m t pls rs HL pl le Hpl Hle) as (s' & x & Hc & _). pose proof (at_path_snoc _ _ _ _ _ (pl_at m t pls rs HL pl Hpl) Hc) as Hat.
    exists s', (mkRegion (l_sector le) (l_size le)). ssplit; auto. eapply reg_region; [exact HP|exact HL|exact Hat|]. right. apply in_map_iff. exists (pl_path pl, le). auto.
  - intros (Hne & t' & r & Hat & Hr & <-). right; right; right; right. pose proof (region_reg m t pls rs HP HL _ _ _ Hat Hr) as Hin.
    destruct Hin as [Hin|Hin]; [injection Hin as <- _ _; congruence|]. apply in_map_iff in Hin as ([q le] & [= <- E _] & Hin). cbn [fst snd] in *.
    exists q, le. split; auto. rewrite E. reflexivity.
Qed.

Lemma added_nodup : NoDup (filter is_dir_added (run_events t pls)) /\ NoDup (filter is_file_added (run_events t pls)).
Proof.
  rewrite dir_events, file_events. split.
  - apply NoDup_map_inv with (f := fun e => match e with EDirAdded p _ => p | _ => [] end). rewrite map_map. apply (pl_paths_nodup m t pls rs HP HL).
  - apply NoDup_map_inv with (f := fun e => match e with EFileAdded p _ => p | _ => [] end). rewrite map_map.
    pose proof (regs_nodup m t pls rs HP HL) as H. unfold regs in H. cbn [map fst] in H. rewrite map_map in H. inversion H as [|? ? _ H']; subst. exact H'.
Qed.
End Events.

Lemma c23_lemma m t fs fuel evs img evs' : source t -> presents fs t -> copies fs t ->
  create_xdvdfs_image fuel m file_wdev fs ([], evs) = ((img, evs'), Ok tt) ->
  exists body v, evs' = evs ++ body ++ [EFinishedPacking] /\ ~ In EFinishedPacking body /\ read_volume (file_dev img) = Ok v
  /\ (forall n, In (EFileCount n) body <-> n = len (filter is_file_added body))
  /\ (forall n, In (EDirCount n) body <-> n = len (filter is_dir_added body))
  /\ NoDup (filter is_dir_added body) /\ NoDup (filter is_file_added body)
  /\ (forall p s, In (EDirAdded p s) body <-> exists cs r, at_path t p (FDir cs) /\ region_at (file_dev img) (v_root v) p r /\ r_sector r = s)
  /\ (forall p s, In (EFileAdded p s) body <-> p <> [] /\ exists t' r, at_path t p t' /\ region_at (file_dev img) (v_root v) p r /\ r_sector r = s).
Proof.
  intros (Ht & HP & Hs) Hp Hc Hrun.
  pose proof (create_more m file_wdev fs fuel (fuel + S (length (dirs [] t))) _ _ _ Hrun ltac:(discriminate) ltac:(lia)) as Hrun'.
  destruct (pack_file m t HP Hs Ht) as [(pls & rs & HL & H)|(e & img' & es & Hr & H)].
  2:{ destruct (H fs (fuel + S (length (dirs [] t)))%nat evs Hp Hc) as (H1 & _); [lia|]. rewrite H1 in Hrun'. discriminate. }
  rewrite (H fs _ evs Hp Hc) in Hrun' by lia. injection Hrun' as <- <-. clear H Hrun.
  destruct (final_volume m t pls rs HP HL) as (v & Hv & Hroot). exists (run_events t pls), v. rewrite Hroot.
  destruct (added_nodup m t pls rs HP HL) as (N1 & N2). split; [reflexivity|]. split; [|split; [exact Hv|]].
  { rewrite in_run. intros [(q & cs & _ & H)|[H|[H|[(pl & Hpl & H)|(q & le & _ & H)]]]]; discriminate. }
  split; [|split; [|split; [exact N1|split; [exact N2|split]]]].
  - intros n. rewrite file_events, in_run. replace (len (map _ (all_entries pls))) with (entries (dirs [] t)) by (rewrite (entry_number m t pls rs HP HL); unfold len; rewrite map_length; reflexivity).
    split; [|intros ->; auto]. intros [(q & cs & _ & H)|[H|[H|[(pl & Hpl & H)|(q & le & _ & H)]]]]; try discriminate. congruence.
  - intros n. rewrite dir_events, in_run. replace (len (map _ pls)) with (len (dirs [] t)) by (rewrite (dir_number m t pls rs HL); unfold len; rewrite map_length; reflexivity).
    split; [|intros ->; auto]. intros [(q & cs & _ & H)|[H|[H|[(pl & Hpl & H)|(q & le & _ & H)]]]]; try discriminate. congruence.
  - intros p s. eapply dir_event; eauto.
  - intros p s. eapply file_event; eauto.
Qed.
