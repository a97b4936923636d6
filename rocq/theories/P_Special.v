(** Proofs about what packing asks the file system for (C140). *)
From Verif Require Import M_Base M_Util M_Layout M_Read M_Img M_Special.
From Verif Require Import S_Avl S_Codec S_Table S_Read S_Img S_Cli S_Special.
From Verif Require Import P_Base P_Disk P_Tree P_Plan P_Pack P_Run P_Packed P_More P_Compress P_Cli.
From Coq Require Import Init.Byte Lia.
Local Open Scope N_scope.

(** ** Directories *)
Inductive seen_from {D} (fs : fsys D) : path -> path -> Prop :=
| sf_here p : seen_from fs p p
| sf_step p es e q : read_dir fs p = Ok es -> In e es -> f_type e = TDirectory -> seen_from fs (p ++ [f_name e]) q -> seen_from fs p q.
Lemma seen_snoc {D} (fs : fsys D) p q : seen_from fs p q -> forall es e, read_dir fs q = Ok es -> In e es -> f_type e = TDirectory -> seen_from fs p (q ++ [f_name e]).
Proof.
  intros H. induction H as [p|p es e q H1 H2 H3 H4 IH]; intros es' e' G1 G2 G3; [eapply sf_step; eauto; constructor|].
  eapply sf_step; eauto.
Qed.
Lemma seen_start {D} (fs : fsys D) p : seen fs p -> seen_from fs [] p.
Proof. intros H. induction H as [|p es e H IH H1 H2 H3]; [constructor|]. eapply seen_snoc; eauto. Qed.

Lemma pushed_in dir listing : forall dirs e, In e listing -> f_type e = TDirectory -> In (from_base dir (f_name e)) (push_subdirs dir listing dirs).
Proof.
  unfold push_subdirs. assert (K : forall l dirs p, In p dirs -> In p (fold_left (fun st e => match f_type e with TDirectory => from_base dir (f_name e) :: st | TFile => st end) l dirs)).
  { induction l as [|e l IH]; intros dirs p H; [exact H|]. cbn [fold_left]. apply IH. destruct (f_type e); [exact H|right; exact H]. }
  induction listing as [|e' l IH]; intros dirs e H Hd; [destruct H|]. cbn [fold_left]. destruct H as [->|H].
  - apply K. rewrite Hd. left. reflexivity.
  - apply IH; auto.
Qed.
Lemma pushed_old dir listing : forall dirs p, In p dirs -> In p (push_subdirs dir listing dirs).
Proof.
  unfold push_subdirs. induction listing as [|e l IH]; intros dirs p H; [exact H|]. cbn [fold_left]. apply IH. destruct (f_type e); [exact H|right; exact H].
Qed.

Lemma loop_reads {D} (fs : fsys D) fuel : forall dirs out s s' l, dir_tree_loop fuel fs dirs out s = (s', Ok l) ->
  forall p q, In p dirs -> seen_from fs p q -> exists es, read_dir fs q = Ok es.
Proof.
  induction fuel as [|fuel IH]; intros dirs out s s' l H p q Hp Hq; (destruct dirs as [|dir dirs]; [destruct Hp|]); cbn [dir_tree_loop] in H; [discriminate|].
  unfold pbind, plift in H. destruct (read_dir fs dir) as [es|e|e|] eqn:Er; cbn [map_err] in H; try discriminate. cbn [report] in H.
  specialize (IH _ _ _ _ _ H). destruct Hp as [->|Hp]; [|apply (IH p q); auto; apply pushed_old; exact Hp].
  inversion Hq as [|? es' e ? G1 G2 G3 G4]; subst; [eauto|]. rewrite Er in G1. injection G1 as <-. apply (IH _ q) in G4; [exact G4|]. apply pushed_in; auto.
Qed.
Lemma c140_dirs {D} fuel m (W : wdev D) (fs : fsys D) s s' : create_xdvdfs_image fuel m W fs s = (s', Ok tt) ->
  forall p, seen fs p -> exists es, read_dir fs p = Ok es.
Proof.
  intros H p Hp. unfold create_xdvdfs_image in H. unfold pbind at 1 in H. destruct (dir_tree fuel fs s) as [s1 [l|e|e|]] eqn:E; try discriminate.
  unfold dir_tree in E. eapply loop_reads; [exact E|left; reflexivity|apply seen_start; exact Hp].
Qed.

(** ** Files *)
Lemma exec_fails {D} (W : wdev D) (fs : fsys D) p off size : (forall d i o s n, snd (copy_in fs p d i o s) <> Ok n) ->
  forall steps, In (SCopy p off size) steps -> forall s, snd (exec W fs steps s) <> Ok tt.
Proof.
  intros Hc steps. induction steps as [|x steps IH]; intros Hin s; [destruct Hin|]. cbn [exec]. unfold pbind at 1. destruct Hin as [->|Hin].
  - cbn [exec_step]. unfold pbind at 1. unfold pcopy. specialize (Hc (fst s) 0 off size). destruct (copy_in fs p (fst s) 0 off size) as [d r]. cbn [snd] in *.
    destruct r as [n|e|e|]; cbn; try discriminate. destruct (Hc n eq_refl).
  - destruct (exec_step W fs x s) as [s1 [u|e|e|]]; cbn [snd]; try discriminate. apply IH. exact Hin.
Qed.
Lemma c140_files {D} fuel m (W : wdev D) (fs : fsys D) t p b s : source t -> presents fs t -> at_path t p (FFile b) ->
  (forall d i o n k, snd (copy_in fs p d i o n) <> Ok k) -> snd (create_xdvdfs_image fuel m W fs s) <> Ok tt.
Proof.
  intros HS Hpr Hat Hc H. destruct s as [d evs]. destruct (create_xdvdfs_image fuel m W fs (d, evs)) as [s' r] eqn:E. cbn [snd] in H. subst r.
  pose proof HS as (Ht & HP & Hs). destruct (pack_run m t HP Hs Ht) as (steps & o & Ho & Hrun).
  pose proof (create_more m W fs fuel (fuel + S (length (dirs [] t))) _ _ _ E ltac:(discriminate) ltac:(lia)) as E'.
  rewrite (Hrun D W fs (fuel + S (length (dirs [] t)))%nat d evs Hpr ltac:(lia)) in E'. unfold pbind in E'.
  destruct Ho as [pls rs HL|steps e Hr _ _].
  - destruct (file_copied m t pls rs p b HS HL Hat) as (sec & Hin & _). pose proof (exec_fails W fs p _ _ Hc _ Hin (d, evs)) as Hf.
    clear Hrun Hat. destruct (exec W fs (all_steps t pls rs) (d, evs)) as [s1 [[]|e|e|]]; cbn [snd] in Hf; try discriminate. congruence.
  - destruct (exec W fs steps (d, evs)) as [s1 [[]|e'|e'|]]; cbn in E'; discriminate.
Qed.

(** ** Directories of the host *)
Lemma raw_ind' (P : raw -> Prop) : (forall b, P (RFile b)) -> (forall n, P (RSealed n)) -> (forall cs, Forall (fun c => P (snd c)) cs -> P (RDir cs)) -> P RLocked -> P ROther -> forall t, P t.
Proof.
  intros H1 H2 H3 H4 H5. fix F 1. intros [b|n|cs| |]; [apply H1|apply H2| |exact H4|exact H5]. apply H3. induction cs as [|[n t] cs IH]; constructor; [apply F|exact IH].
Qed.
Lemma lookup_raw_app p q t t' : lookup_raw p t = Some t' -> lookup_raw (p ++ q) t = lookup_raw q t'.
Proof.
  revert t. induction p as [|s p IH]; intros t H; [injection H as ->; reflexivity|]. cbn [app lookup_raw] in *. destruct t; try discriminate.
  destruct (find _ children) as [[n c]|]; [|discriminate]. auto.
Qed.
Lemma raw_child cs n t : raw_proper (RDir cs) -> In (Some n, t) cs -> lookup_raw [n] (RDir cs) = Some t.
Proof.
  intros Hp Hin. inversion Hp as [? Hu _|? Hn]; subst; [|destruct (Hn _ eq_refl)]. cbn [lookup_raw]. apply In_nth_error in Hin as (j & Hj).
  destruct (find (fun c => is_name n (fst c)) cs) as [[n' t']|] eqn:Ef.
  - apply find_some in Ef as (Hi & Hm). cbn [fst is_name] in Hm. destruct n' as [n'|]; [|discriminate]. cbn [is_name] in Hm. apply str_eqb_spec in Hm as <-.
    apply In_nth_error in Hi as (i & Hi). assert (i = j) as -> by (eapply Hu; eauto). congruence.
  - apply nth_error_In in Hj. apply (find_none _ _ Ef) in Hj. cbn in Hj. rewrite str_eqb_refl in Hj. discriminate.
Qed.
Lemma mapM_all {E A B} (f : A -> res E B) l l' : mapM f l = Ok l' -> Forall2 (fun a b => f a = Ok b) l l'.
Proof.
  revert l'. induction l as [|a l IH]; intros l' H; cbn [mapM] in H; [injection H as <-; constructor|].
  destruct (f a) as [b|e|e|] eqn:Ea; cbn [bind] in H; try discriminate. destruct (mapM f l) as [bs|e|e|] eqn:El; cbn [bind] in H; try discriminate.
  injection H as <-. constructor; auto.
Qed.
Lemma mapM_intro {E A B} (f : A -> res E B) l l' : Forall2 (fun a b => f a = Ok b) l l' -> mapM f l = Ok l'.
Proof. intros H. induction H as [|a b l l' H _ IH]; [reflexivity|]. cbn [mapM]. rewrite H, IH. reflexivity. Qed.

Lemma raw_listable root : (forall q, seen (raw_fs root) q -> exists es, raw_read_dir root q = Ok es) ->
  forall t p, raw_proper t -> lookup_raw p root = Some t ->
  (match t with RDir _ | RLocked => seen (raw_fs root) p | ROther => False | _ => True end) -> exists f, listable t f.
Proof.
  intros HR t. induction t as [b|n|cs IH| |] using raw_ind'; intros p Hp Hl Hs.
  - exists (FFile b). constructor.
  - exists (FFile (fill n x00)). replace (RSealed n) with (RSealed (len (fill n x00))) by (rewrite len_fill; reflexivity). constructor.
  - destruct (HR p Hs) as (es & He). pose proof He as Hes. unfold raw_read_dir in He. rewrite Hl in He. apply mapM_all in He.
    assert (G : exists fs, Forall2 (fun r c => fst r = Some (fst c) /\ listable (snd r) (snd c)) cs fs).
    { assert (K : forall rs es', incl rs cs -> incl es' es -> Forall2 (fun a b => raw_entry a = Ok b) rs es' -> exists fs, Forall2 (fun r c => fst r = Some (fst c) /\ listable (snd r) (snd c)) rs fs).
      { intros rs es' Hi Hi' H. revert Hi Hi'. induction H as [|[n r] e rs es' Hre _ IHl]; intros Hi Hi'; [exists []; constructor|].
        destruct IHl as (fs & Hfs); [intros x Hx; apply Hi; right; exact Hx|intros x Hx; apply Hi'; right; exact Hx|].
        assert (Hin : In (n, r) cs) by (apply Hi; left; reflexivity). assert (Hie : In e es) by (apply Hi'; left; reflexivity).
        unfold raw_entry in Hre. cbn [fst snd] in Hre. unfold ok_or in Hre. destruct n as [n|]; [|destruct r; discriminate].
        pose proof (raw_child cs n r Hp Hin) as Hc.
        assert (Hf : exists f, listable r f).
        { rewrite Forall_forall in IH. specialize (IH _ Hin (p ++ [n])). cbn [snd] in IH. apply IH.
          - inversion Hp as [? _ Ha|? Hn]; subst; [|destruct (Hn _ eq_refl)]. rewrite Forall_forall in Ha. exact (Ha _ Hin).
          - rewrite (lookup_raw_app p [n] root _ Hl). exact Hc.
          - destruct r; cbn [bind] in Hre; try exact I; try discriminate; injection Hre as <-; exact (seen_child (raw_fs root) p es _ Hs Hes Hie eq_refl). }
        destruct Hf as (f & Hf). exists ((n, f) :: fs). constructor; [split; [reflexivity|exact Hf]|exact Hfs]. }
      apply (K cs es); [apply incl_refl|apply incl_refl|exact He]. }
    destruct G as (fs & G). exists (FDir fs). constructor. exact G.
  - destruct (HR p Hs) as (es & He). unfold raw_read_dir in He. rewrite Hl in He. discriminate.
  - destruct Hs.
Qed.

Lemma listable_dir t cs : listable t (FDir cs) -> exists rs, t = RDir rs /\ Forall2 (fun r c => fst r = Some (fst c) /\ listable (snd r) (snd c)) rs cs.
Proof. intros H. inversion H; subst; eauto. Qed.
Lemma plain_dirs t cs : plain t (FDir cs) -> exists rs, t = RDir rs /\ Forall2 (fun r c => fst r = Some (fst c) /\ plain (snd r) (snd c)) rs cs.
Proof. intros H. inversion H; subst; eauto. Qed.
Lemma listable_at t f : listable t f -> raw_proper t -> forall p f', at_path f p f' -> exists t', lookup_raw p t = Some t' /\ listable t' f' /\ raw_proper t'.
Proof.
  intros H HP p f' Hat. revert t H HP. induction Hat as [f|cs n f p f' Hin Hat IH]; intros t H HP; [exists t; ssplit; auto|].
  apply listable_dir in H as (rs & -> & HF). assert (G : exists r, In (Some n, r) rs /\ listable r f).
  { clear - HF Hin. induction HF as [|[n' r] [n'' c] rs cs (E & Hl) _ IH]; [destruct Hin|]. destruct Hin as [[= -> ->]|Hin].
    - exists r. cbn [fst] in E. subst n'. split; [left; reflexivity|exact Hl].
    - destruct (IH Hin) as (r' & ? & ?). exists r'. split; [right; assumption|assumption]. }
  destruct G as (r & Hr & Hl). pose proof (raw_child rs n r HP Hr) as Hc.
  assert (HPr : raw_proper r). { inversion HP as [? _ Ha|? Hn]; subst; [|destruct (Hn _ eq_refl)]. rewrite Forall_forall in Ha. exact (Ha _ Hr). }
  destruct (IH r Hl HPr) as (t' & G1 & G2). exists t'. split; [|exact G2]. change (n :: p) with ([n] ++ p). rewrite (lookup_raw_app [n] p _ r Hc). exact G1.
Qed.
Lemma listable_presents t f : listable t f -> raw_proper t -> presents (raw_fs t) f.
Proof.
  intros H HP p cs Hat. destruct (listable_at t f H HP p _ Hat) as (t' & Hl & Hls & _). cbn. unfold raw_read_dir. rewrite Hl. apply listable_dir in Hls as (rs & -> & HF).
  assert (G : exists es, Forall2 (fun a b => raw_entry a = Ok b) rs es /\ Forall2 lists_as es cs).
  { clear - HF. induction HF as [|[n r] [n' c] rs cs (E & Hl) _ (es & IH1 & IH2)]; [exists []; split; constructor|]. cbn [fst snd] in *. subst n.
    assert (G : exists e, raw_entry (Some n', r) = Ok e /\ lists_as e (n', c)) by (inversion Hl; subst; eexists; (split; [reflexivity|repeat split])).
    destruct G as (e & G1 & G2). exists (e :: es). split; constructor; auto. }
  destruct G as (es & G1 & G2). exists es. split; [apply mapM_intro; exact G1|exact G2].
Qed.

Lemma listable_plain t f : listable t f -> (forall p b, at_path f p (FFile b) -> lookup_raw p t = Some (RFile b)) -> raw_proper t -> plain t f.
Proof.
  intros H. revert f H. induction t as [b|n|rs IH| |] using raw_ind'; intros f H Hf HP; inversion H; subst.
  - constructor.
  - specialize (Hf [] b (at_here _)). discriminate.
  - constructor. rewrite Forall_forall in IH. match goal with H : Forall2 _ rs cs |- _ => rename H into HF end.
    assert (K : forall rs' cs', incl rs' rs -> incl cs' cs -> Forall2 (fun r c => fst r = Some (fst c) /\ listable (snd r) (snd c)) rs' cs' -> Forall2 (fun r c => fst r = Some (fst c) /\ plain (snd r) (snd c)) rs' cs').
    { intros rs' cs' Hi Hi' G. revert Hi Hi'. induction G as [|[n r] [n' c] rs' cs' (E & Hl) _ IHl]; intros Hi Hi'; constructor.
      - cbn [fst snd] in *. split; [exact E|]. subst n. assert (Hin : In (Some n', r) rs) by (apply Hi; left; reflexivity). apply (IH _ Hin); auto.
        + intros p b Hat. specialize (Hf (n' :: p) b (at_child _ _ _ _ _ (Hi' _ (or_introl eq_refl)) Hat)).
          change (n' :: p) with ([n'] ++ p) in Hf. rewrite (lookup_raw_app [n'] p _ r (raw_child rs n' r HP Hin)) in Hf. exact Hf.
        + inversion HP as [? _ Ha|? Hn]; subst; [|destruct (Hn _ eq_refl)]. rewrite Forall_forall in Ha. exact (Ha _ Hin).
      - apply IHl; intros x Hx; [apply Hi|apply Hi']; right; exact Hx. }
    apply (K rs cs); [apply incl_refl|apply incl_refl|exact HF].
Qed.
Lemma plain_listable t f : plain t f -> listable t f.
Proof.
  revert f. induction t as [b|n|rs IH| |] using raw_ind'; intros f H; inversion H as [|rs' cs HF]; subst; constructor.
  rewrite Forall_forall in IH. clear H. induction HF as [|r c rs cs (E & Hp) _ IHl]; constructor; [split; [exact E|apply IH; [left; reflexivity|exact Hp]]|].
  apply IHl. intros x Hx. apply IH. right. exact Hx.
Qed.
Lemma plain_at t f p b : plain t f -> raw_proper t -> at_path f p (FFile b) -> lookup_raw p t = Some (RFile b).
Proof.
  intros H HP Hat. revert t H HP. remember (FFile b) as fb eqn:Efb. induction Hat as [f|cs n f p f' Hin Hat IH]; intros t H HP.
  - subst f. inversion H; subst. reflexivity.
  - apply plain_dirs in H as (rs & -> & HF). assert (G : exists r, In (Some n, r) rs /\ plain r f).
    { clear - HF Hin. induction HF as [|[n' r] [n'' c] rs cs (E & Hl) _ IH]; [destruct Hin|]. destruct Hin as [[= -> ->]|Hin].
      - exists r. cbn [fst] in E. subst n'. split; [left; reflexivity|exact Hl].
      - destruct (IH Hin) as (r' & ? & ?). exists r'. split; [right; assumption|assumption]. }
    destruct G as (r & Hr & Hl). change (n :: p) with ([n] ++ p). rewrite (lookup_raw_app [n] p _ r (raw_child rs n r HP Hr)). apply IH; auto.
    inversion HP as [? _ Ha|? Hn]; subst; [|destruct (Hn _ eq_refl)]. rewrite Forall_forall in Ha. exact (Ha _ Hr).
Qed.
Lemma plain_copies t f : plain t f -> raw_proper t -> copies (raw_fs t) f.
Proof.
  intros H HP p b img off Hat. cbn. unfold raw_copy_file. rewrite (plain_at t f p b H HP Hat).
  pose proof (slice_app_l b []) as X. rewrite app_nil_r in X. rewrite X. reflexivity.
Qed.

Lemma c140_std_lemma fuel m t evs img evs' : raw_proper t -> create_xdvdfs_image fuel m file_wdev (raw_fs t) ([], evs) = ((img, evs'), Ok tt) ->
  exists f, listable t f /\ (source f -> plain t f /\ is_image img f).
Proof.
  intros HP H. pose proof (c140_dirs _ _ _ _ _ _ H) as HR. destruct (HR [] (seen_root _)) as (es0 & He0).
  assert (Hroot : exists cs, t = RDir cs) by (cbn in He0; unfold raw_read_dir in He0; destruct t; try discriminate; eauto). destruct Hroot as (cs & ->).
  destruct (raw_listable (RDir cs) HR (RDir cs) [] HP eq_refl (seen_root _)) as (f & Hf). exists f. split; [exact Hf|]. intros HS.
  pose proof (listable_presents _ _ Hf HP) as Hpr.
  assert (Hpl : plain (RDir cs) f).
  { apply listable_plain; auto. intros p b Hat. destruct (listable_at _ _ Hf HP p _ Hat) as (t' & Hl & Hls & _). inversion Hls; subst; [exact Hl|].
    exfalso. apply (c140_files fuel m file_wdev (raw_fs (RDir cs)) f p b ([], evs) HS Hpr Hat); [|rewrite H; reflexivity].
    intros d i o n k. cbn. unfold raw_copy_file. rewrite Hl. discriminate. }
  split; [exact Hpl|]. apply (packed_is_image m f img HS). exists (raw_fs (RDir cs)), fuel, evs, evs'. ssplit; auto. apply plain_copies; auto.
Qed.
Lemma c140_plain_lemma m t f : raw_proper t -> plain t f -> source f -> representable m f ->
  exists img evs', returns (fun fuel => create_xdvdfs_image fuel m file_wdev (raw_fs t) ([], [])) ((img, evs'), Ok tt) /\ is_image img f.
Proof.
  intros HP H HS HR. pose proof (listable_presents _ _ (plain_listable _ _ H) HP) as Hpr. pose proof (plain_copies _ _ H HP) as Hc.
  destruct (c19_lemma m f (raw_fs t) [] HS Hpr Hc) as (img & evs' & o & Hret & Ho). destruct Ho as [(_ & ->)|(Hn & _)]; [|destruct (Hn HR)].
  exists img, evs'. split; [exact Hret|]. destruct Hret as (fuel & Hf). apply (packed_is_image m f img HS). exists (raw_fs t), fuel, [], evs'. ssplit; auto.
Qed.
