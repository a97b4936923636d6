(** Proofs about M_Gui (C89-C92). *)
From Verif Require Import M_Base M_Util M_Layout M_Avl M_Sector M_Dirtab M_Read M_Img M_Cli M_Unpack M_Exiso M_Host M_Gui.
From Verif Require Import S_Avl S_Codec S_Table S_Read S_Img S_Gui.
From Verif Require Import P_Base P_Codec P_Place P_Dirtab P_Table P_Find P_Read P_Witness P_Map P_Tree P_Tabs P_Scan P_Disk P_Plan P_Pack P_Run P_Image P_File P_Packed P_More P_Events.
From Coq Require Import Init.Byte.
Local Open Scope N_scope.

(** ** Pages that build an image *)
Definition has_parts (b : builder) : Prop :=
  (1 <= rank (b_state b) -> b_type b <> None) /\ (2 <= rank (b_state b) -> b_input b <> None).

Lemma view_busy k b v : builder_view k b = Ok v -> v_enabled v = true -> is_packing (b_state b) = false.
Proof.
  unfold builder_view. destruct (if 1 <=? rank (b_state b) then _ else _) as [i|e|e|]; cbn [bind]; try discriminate.
  destruct (if 2 <=? rank (b_state b) then _ else _) as [o|e|e|]; cbn [bind]; try discriminate. intros H; injection H as <-. cbn. destruct (is_packing (b_state b)); [discriminate|reflexivity].
Qed.
Lemma view_ok k b : has_parts b -> (k = PackPage -> forall p, b_input b = Some p -> file_name (pick_name p) <> None) -> exists v, builder_view k b = Ok v.
Proof.
  intros (H1 & H2) Hn. unfold builder_view. destruct (1 <=? rank (b_state b)) eqn:E1.
  - apply N.leb_le in E1. specialize (H1 E1). destruct (b_type b) as [t|] eqn:Et; [|congruence]. cbn [unwrap bind].
    destruct (2 <=? rank (b_state b)); [|eexists; reflexivity]. destruct k; [|eexists; reflexivity]. unfold suggestion.
    destruct (b_input b) as [p|]; [|eexists; reflexivity]. specialize (Hn eq_refl p eq_refl). destruct (file_name (pick_name p)); [|congruence]. eexists; reflexivity.
  - cbn [bind]. destruct (2 <=? rank (b_state b)) eqn:E2; [apply N.leb_le in E2; apply N.leb_gt in E1; lia|]. eexists; reflexivity.
Qed.
Lemma view_output k b v : builder_view k b = Ok v -> v_output v <> None -> 2 <= rank (b_state b).
Proof.
  unfold builder_view. destruct (if 1 <=? rank (b_state b) then _ else _) as [i|e|e|]; cbn [bind]; try discriminate.
  destruct (2 <=? rank (b_state b)) eqn:E; [intros _ _; apply N.leb_le; exact E|]. cbn [bind]. intros H; injection H as <-. cbn. congruence.
Qed.
Lemma view_input k b v : builder_view k b = Ok v -> v_input v <> None -> 1 <= rank (b_state b).
Proof.
  unfold builder_view. destruct (1 <=? rank (b_state b)) eqn:E; [intros _ _; apply N.leb_le; exact E|]. cbn [bind].
  destruct (if 2 <=? rank (b_state b) then _ else _) as [o|e|e|]; cbn [bind]; try discriminate. intros H; injection H as <-. cbn. congruence.
Qed.
Lemma no_crash k ok b js : has_parts b -> (k = PackPage -> forall p, b_input b = Some p -> file_name (pick_name p) <> None) -> ~ crashes k ok b js.
Proof.
  intros HP Hn [H|(v & m & Hv & Ho & _ & H)].
  - destruct (view_ok k b HP Hn) as (v & E). apply (H v E).
  - destruct Ho as (He & Ho). destruct m as [e|c|t|p|o|s]; try contradiction; try (eapply H; reflexivity).
    apply (view_output _ _ _ Hv) in Ho. destruct HP as (_ & HP). specialize (HP Ho). cbn in H. destruct (b_input b); [|congruence]. eapply H. reflexivity.
Qed.

(** What the user and jobs do to the parts of a page. *)
Lemma user_parts k b v m b' j : has_parts b -> builder_view k b = Ok v -> offers v m -> builder_update b m = Ok (b', j) ->
  has_parts b' /\ match m with SetOutput _ => is_packing (b_state b') = true /\ b_input b' = b_input b | SetInput p => b_input b' = Some p | _ => b_input b' = None end
  /\ (j <> None <-> exists o, m = SetOutput o).
Proof.
  intros (H1 & H2) Hv (He & Ho) Hu. destruct m as [e|c|t|p|o|s]; try contradiction; cbn in Hu.
  - injection Hu as <- <-. split; [split; cbn; [congruence|lia]|split; [reflexivity|split; [congruence|intros (o & E); discriminate]]].
  - injection Hu as <- <-. assert (Hr : 1 <= rank (b_state b)) by (eapply view_input; [exact Hv|]; destruct p; congruence).
    split; [split; cbn; [intros _; auto|congruence]|split; [reflexivity|split; [congruence|intros (o & E); discriminate]]].
  - destruct (b_input b) as [p|] eqn:Ei; cbn in Hu; [|discriminate]. injection Hu as <- <-. apply (view_output _ _ _ Hv) in Ho.
    split; [split; cbn; [intros _; apply H1; lia|congruence]|split; [split; [reflexivity|reflexivity]|split; [eauto|congruence]]].
Qed.
Lemma job_parts k b m b' : job_says k m -> builder_update b m = Ok (b', None) ->
  b_type b' = b_type b /\ b_input b' = b_input b /\ (b_state b' = b_state b \/ is_packing (b_state b') = true \/ k = CompressPage /\ b_state b' = Compressing).
Proof.
  intros Hs Hu. destruct m as [e|c|t|p|o|s]; try contradiction; cbn in Hu.
  - injection Hu as <-. destruct e; cbn; auto.
  - injection Hu as <-. destruct c; cbn; auto.
  - injection Hu as <-. cbn. destruct s; try contradiction; cbn; auto 6.
Qed.
Lemma end_parts b m b' : job_ends m -> builder_update b m = Ok (b', None) -> b_type b' = b_type b /\ b_input b' = b_input b.
Proof. intros Hs Hu. destruct m as [e|c|t|p|o|s]; try contradiction. cbn in Hu. injection Hu as <-. auto. Qed.

(** The page for packing, and the others if the user waits: the jobs are those of a
    busy page. *)
Definition calm (k : kind) (b : builder) (js : list (pick * str)) : Prop :=
  has_parts b /\ match js with [] => True | [_] => b_type b <> None /\ b_input b <> None /\ (is_packing (b_state b) = true \/ k = CompressPage /\ b_state b = Compressing) | _ => False end.
Lemma calm_history k (ok : list (pick * str) -> bmsg -> Prop) b js : (k = PackPage \/ forall js m, ok js m -> js = []) -> history k ok b js -> calm k b js.
Proof.
  intros Hk. induction 1 as [|b js v m b' j H (P & IH) Hv Ho Hok Hu|b js m b' H (P & IH) Hj Hs Hu|b js1 j js2 m b' H (P & IH) Hs Hu].
  - split; [split; cbn; lia|exact I].
  - destruct (user_parts _ _ _ _ _ _ P Hv Ho Hu) as (P' & Hm & Hst). split; [exact P'|].
    assert (Hjs : js = []).
    { destruct Hk as [->|Hk]; [|eapply Hk; eauto]. destruct js as [|j0 [|]]; auto; [|contradiction]. destruct IH as (_ & _ & [E|(E & _)]); [|discriminate].
      pose proof (view_busy _ _ _ Hv (proj1 Ho)). congruence. }
    subst js. destruct j as [j|]; cbn; [|exact I]. destruct Hst as (Hst & _). destruct (Hst ltac:(congruence)) as (o & ->). destruct Hm as (Hm & Hi).
    destruct P' as (P1 & P2). assert (R : rank (b_state b') = 3) by (destruct (b_state b'); try discriminate; reflexivity). ssplit; [apply P1; lia|apply P2; lia|left; exact Hm].
  - destruct (job_parts _ _ _ _ Hs Hu) as (E1 & E2 & E3). destruct js as [|j0 [|]]; [congruence| |contradiction]. destruct IH as (H1 & H2 & H3).
    split; [split; rewrite ?E1, ?E2; auto|]. cbn. rewrite E1, E2. ssplit; auto. destruct E3 as [->|[E3|E3]]; auto.
  - destruct (end_parts _ _ _ Hs Hu) as (E1 & E2). destruct js1 as [|a [|]]; destruct js2; cbn in *; try contradiction. destruct IH as (H1 & H2 & _). split; [split; rewrite ?E1, ?E2; auto|exact I].
Qed.
Lemma calm_jobs k b js : calm k b js -> (length js <= 1)%nat.
Proof. intros (_ & H). destruct js as [|a [|]]; cbn in *; [lia|lia|contradiction]. Qed.

Definition named (js : list (pick * str)) (m : bmsg) : Prop := match m with SetInput p => file_name (pick_name p) <> None | _ => True end.
Lemma named_history b js : history PackPage named b js -> forall p, b_input b = Some p -> file_name (pick_name p) <> None.
Proof.
  induction 1 as [|b js v m b' j H IH Hv Ho Hok Hu|b js m b' H IH Hj Hs Hu|b js1 j js2 m b' H IH Hs Hu]; [discriminate| | |].
  - destruct Ho as (_ & Ho). destruct m as [e|c|t|q|o|s]; try contradiction; cbn in Hu.
    + injection Hu as <- <-. discriminate.
    + injection Hu as <- <-. cbn. intros p E; injection E as <-. exact Hok.
    + destruct (b_input b) eqn:Ei; cbn in Hu; [|discriminate]. injection Hu as <- <-. cbn. exact IH.
  - destruct (job_parts _ _ _ _ Hs Hu) as (_ & -> & _). exact IH.
  - destruct (end_parts _ _ _ Hs Hu) as (_ & ->). exact IH.
Qed.
Lemma c89_lemma b js : history PackPage named b js -> ~ crashes PackPage named b js /\ (length js <= 1)%nat.
Proof.
  intros H. pose proof (calm_history PackPage named b js (or_introl eq_refl) H) as C. split; [|eapply calm_jobs; eauto]. destruct C as (P & _).
  apply no_crash; auto. intros _. apply (named_history b js H).
Qed.
Lemma c89_jobs ok b js : history PackPage ok b js -> (length js <= 1)%nat /\ forall v, js <> [] -> builder_view PackPage b = Ok v -> v_enabled v = false.
Proof.
  intros H. pose proof (calm_history PackPage ok b js (or_introl eq_refl) H) as C. split; [eapply calm_jobs; eauto|]. intros v Hj Hv. destruct C as (_ & C).
  destruct js as [|a [|]]; [congruence| |contradiction]. destruct C as (_ & _ & [E|(E & _)]); [|discriminate]. destruct (v_enabled v) eqn:Ev; auto. pose proof (view_busy _ _ _ Hv Ev). congruence.
Qed.
Definition patient (js : list (pick * str)) (m : bmsg) : Prop := js = [].
Lemma c91_lemma b js : history CompressPage patient b js -> ~ crashes CompressPage patient b js /\ (length js <= 1)%nat.
Proof.
  intros H. assert (C : calm CompressPage b js) by (apply (calm_history CompressPage patient); [right; unfold patient; auto|exact H]). split; [|eapply calm_jobs; eauto]. destruct C as (P & _).
  apply no_crash; auto. discriminate.
Qed.

(** ** The page for unpacking *)
Definition ucalm (u : unpacker) (js : list (str * str)) : Prop :=
  match js with [] => True | [_] => u_state u = Unpacking | _ => False end.
Lemma ucalm_history ok l u js : uhistory ok l u js -> ucalm u js.
Proof.
  induction 1 as [|l u js m u' j H IH Ho Hok Hu|l u js e u' H IH Hj Hu|l u js u' H IH Hj Hu|l u js1 j js2 s u' H IH Hs Hu].
  - exact I.
  - destruct Ho as (He & Ho). assert (Hjs : js = []) by (destruct js as [|a [|]]; auto; [cbn in IH; cbn in He; rewrite IH in He; discriminate|contradiction]).
    subst js. destruct m as [e|[n|n]|o|s]; try contradiction; cbn in Hu.
    + injection Hu as <- <-. exact I.
    + destruct (u_input u); cbn in Hu; [|discriminate]. injection Hu as <- <-. reflexivity.
  - assert (E : u_state u' = u_state u) by (cbn in Hu; destruct e; injection Hu as <-; reflexivity). destruct js as [|a [|]]; cbn in *; congruence.
  - cbn in Hu. injection Hu as <-. destruct js as [|a [|]]; cbn in *; auto; congruence.
  - destruct js1 as [|a [|]]; destruct js2; cbn in *; try contradiction; exact I.
Qed.
Lemma ucalm_jobs u js : ucalm u js -> (length js <= 1)%nat.
Proof. destruct js as [|a [|]]; cbn; [lia|lia|contradiction]. Qed.
(** The user chooses an input before every output. *)
Definition in_turn (l : list umsg) (m : umsg) : Prop := match m with USetOutput _ => exists n l', l = USetInput (PickFile n) :: l' | _ => True end.
Lemma turn_history l u js : uhistory in_turn l u js -> match l with USetInput (PickFile n) :: _ => u_input u = Some n | _ => True end.
Proof.
  induction 1 as [|l u js m u' j H IH Ho Hok Hu|l u js e u' H IH Hj Hu|l u js u' H IH Hj Hu|l u js1 j js2 s u' H IH Hs Hu]; auto.
  - destruct Ho as (_ & Ho). destruct m as [e|[n|n]|o|s]; try contradiction; cbn in Hu; [injection Hu as <- <-; reflexivity|exact I].
  - assert (E : u_input u' = u_input u) by (cbn in Hu; destruct e; injection Hu as <-; reflexivity). rewrite E. exact IH.
  - cbn in Hu. injection Hu as <-. exact IH.
  - cbn in Hu. injection Hu as <-. exact IH.
Qed.
Lemma c90_lemma l u js : uhistory in_turn l u js -> ~ ucrashes in_turn l u.
Proof.
  intros H (m & (_ & Ho) & Hok & Hu). destruct m as [e|[n|n]|o|s]; try contradiction; [eapply Hu; reflexivity|].
  destruct Hok as (n & l' & ->). apply turn_history in H. cbn in Hu. rewrite H in Hu. eapply Hu. reflexivity.
Qed.

(** ** Progress *)
Definition follow (b : builder) (e : event) : builder := match builder_update b (UpdateProgress e) with Ok (b', _) => b' | _ => b end.
Lemma follow_discovered ns : forall b, b_done (fold_left follow (map EDiscoveredDirectory ns) b) = b_done b.
Proof. induction ns as [|n ns IH]; intros b; cbn; auto. rewrite IH. reflexivity. Qed.
Lemma follow_added l : (forall e, In e l -> is_dir_added e = true \/ is_file_added e = true) -> forall b,
  b_count (fold_left follow l b) = b_count b /\ b_done (fold_left follow l b) = b_done b + len (filter is_file_added l).
Proof.
  induction l as [|e l IH]; intros Hl b; cbn [fold_left filter]; [change (len (@nil event)) with 0; lia|]. destruct (IH (fun x Hx => Hl x (or_intror Hx)) (follow b e)) as (E1 & E2). rewrite E1, E2.
  destruct (Hl e (or_introl eq_refl)) as [H|H]; destruct e; try discriminate; cbn [is_file_added]; cbn; auto. split; auto. unfold len. cbn [length]. lia.
Qed.
Lemma first_split t : exists ns n k, first_events t = map EDiscoveredDirectory ns ++ [EFileCount n; EDirCount k] /\ n = entries (dirs [] t).
Proof. unfold first_events. eexists (map _ (dirs [] t)), _, _. rewrite map_map. split; reflexivity. Qed.
Lemma c92_lemma m t fs fuel img evs b : source t -> presents fs t -> copies fs t ->
  create_xdvdfs_image fuel m file_wdev fs ([], []) = ((img, evs), Ok tt) -> b_done b = 0 ->
  exists l, entry_paths t at_path l /\ b_count (fold_left follow evs b) = len l /\ b_done (fold_left follow evs b) = len l.
Proof.
  intros (Ht & HP & Hs) Hp Hc Hrun Hb.
  pose proof (c23_lemma m t fs fuel [] img evs (conj Ht (conj HP Hs)) Hp Hc Hrun) as (body' & v' & Eb & _ & Hv & _ & _ & _ & N2 & _ & HF).
  pose proof (create_more m file_wdev fs fuel (fuel + S (length (dirs [] t))) _ _ _ Hrun ltac:(discriminate) ltac:(lia)) as Hrun'.
  destruct (pack_file m t HP Hs Ht) as [(pls & rs & HL & H)|(e & img' & es & Hr & H)].
  2:{ destruct (H fs (fuel + S (length (dirs [] t)))%nat [] Hp Hc) as (H1 & _); [lia|]. rewrite H1 in Hrun'. discriminate. }
  rewrite (H fs _ [] Hp Hc) in Hrun' by lia. injection Hrun' as <- Hev. clear H Hrun. cbn [app] in Hev, Eb. rewrite <- Hev in Eb. apply app_inj_tail in Eb as (Eb & _). subst body'.
  assert (En : len (filter is_file_added (run_events t pls)) = entries (dirs [] t)) by (rewrite file_events, (entry_number m t pls rs HP HL); unfold len; rewrite map_length; reflexivity).
  exists (map (fun e => match e with EFileAdded p _ => p | _ => [] end) (filter is_file_added (run_events t pls))).
  assert (El : len (map (fun e => match e with EFileAdded p _ => p | _ => [] end) (filter is_file_added (run_events t pls))) = entries (dirs [] t)) by (rewrite <- En; unfold len; rewrite map_length; reflexivity).
  split; [split|].
  - rewrite file_events, map_map. pose proof (regs_nodup m t pls rs HP HL) as R. unfold regs in R. cbn [map fst] in R. rewrite map_map in R. inversion R as [|? ? _ R']; subst. exact R'.
  - intros p. rewrite in_map_iff. split.
    + intros (e & Ee & Hin). apply filter_In in Hin as (Hin & Hf). destruct e; try discriminate. subst p0. apply HF in Hin as (H1 & t' & r & H2 & _). eauto.
    + intros (H1 & t' & H2). destruct (reg_exists m t pls rs HP HL p t' H2) as (s & n & [E|Hin]); [injection E as <- _ _; congruence|]. apply in_map_iff in Hin as (x & [= <- _ _] & Hin).
      eexists. split; [|rewrite file_events; apply in_map_iff; exists x; split; [reflexivity|exact Hin]]. reflexivity.
  - rewrite <- Hev. rewrite fold_left_app. cbn [fold_left]. set (b' := fold_left follow (run_events t pls) b).
    assert (G : b_count b' = entries (dirs [] t) /\ b_done b' = entries (dirs [] t)).
    { unfold b', run_events. destruct (first_split t) as (ns & n & k & E & ->). rewrite E, !fold_left_app. cbn [fold_left].
      destruct (follow_added (concat (map pl_events pls))) with (b := follow (follow (fold_left follow (map EDiscoveredDirectory ns) b) (EFileCount (entries (dirs [] t)))) (EDirCount k)) as (E1 & E2).
      { intros e He. apply in_concat in He as (x & Hx & He). apply in_map_iff in Hx as (pl & <- & _). destruct He as [<-|He]; [left; reflexivity|right]. apply in_map_iff in He as (y & <- & _). reflexivity. }
      rewrite E1, E2. cbn. rewrite follow_discovered, Hb. split; [reflexivity|]. rewrite <- En. unfold run_events. rewrite filter_app, E, filter_app. cbn [filter is_file_added app].
      assert (Z : filter is_file_added (map EDiscoveredDirectory ns) = []) by (clear; induction ns; cbn; auto). rewrite Z. cbn [app]. lia. }
    destruct G as (G1 & G2). split; (etransitivity; [|symmetry; exact El]); [exact G1|exact G2].
Qed.

(** ** Witnesses *)
From Verif Require Import P_Vm.
From Verif Require Import P_Src P_Repack.
From Coq Require Import Strings.String.
From Coq Require Import List.
Local Close Scope string_scope.
Definition anything {A B} (_ : A) (_ : B) : Prop := True.
Lemma c91_offers o : offers (mkView true (Some IDir) (Some None) 0) (SetOutput o).
Proof. split; [reflexivity|discriminate]. Qed.
Lemma c91_compressing :
  exists b, history CompressPage anything b [(PickDir (text "d"), text "o")] /\ b_state b = Compressing /\ b_input b = Some (PickDir (text "d")) /\ b_type b = Some IDir
    /\ b = mkBuilder Compressing (Some IDir) (Some (PickDir (text "d"))) (Some (text "o")) 0 0.
Proof.
  pose proof (h_user CompressPage anything _ [] _ (SetInputType IDir) _ _ (h_start _ _) eq_refl (conj eq_refl I) I eq_refl) as H1.
  pose proof (h_user CompressPage anything _ [] _ (SetInput (PickDir (text "d"))) _ _ H1 eq_refl (conj eq_refl eq_refl) I eq_refl) as H2.
  pose proof (h_user CompressPage anything _ [] (mkView true (Some IDir) (Some None) 0) (SetOutput (text "o")) _ _ H2 eq_refl (c91_offers _) I eq_refl) as H3.
  pose proof (h_job CompressPage anything _ _ (ChangeState Compressing) _ H3 ltac:(discriminate) eq_refl eq_refl) as H4.
  eexists. split; [exact H4|]. vm_all.
Qed.

(** The counters are zero until a job counts. *)
Lemma c92_fresh_lemma k (ok : list (pick * str) -> bmsg -> Prop) b js : k = PackPage \/ (forall js m, ok js m -> js = []) -> history k ok b js ->
  rank (b_state b) <= 2 -> b_count b = 0 /\ b_done b = 0.
Proof.
  intros Hk H. induction H as [|b js v m b' j H IH Hv Ho Hok Hu|b js m b' H IH Hj Hs Hu|b js1 j js2 m b' H IH Hs Hu]; intros Hr; [split; reflexivity| | |].
  - destruct Ho as (_ & Ho). destruct m as [e|c|t|q|o|s]; try contradiction; cbn in Hu.
    + injection Hu as <- <-. split; reflexivity.
    + injection Hu as <- <-. split; reflexivity.
    + destruct (b_input b) eqn:Ei; cbn in Hu; [|discriminate]. injection Hu as <- <-. split; reflexivity.
  - exfalso. pose proof (calm_history k ok b js Hk H) as (_ & C). destruct js as [|a [|]]; [congruence| |contradiction]. destruct C as (_ & _ & C).
    destruct (job_parts _ _ _ _ Hs Hu) as (_ & _ & E).
    assert (R : rank (b_state b) = 3 \/ rank (b_state b) = 4) by (destruct C as [C|(_ & C)]; destruct (b_state b); try discriminate; cbn; auto).
    destruct E as [E|[E|(_ & E)]]; [rewrite E in Hr; intros; destruct R as [R|R]; rewrite R in Hr; lia| |]; destruct (b_state b'); try discriminate; cbn in Hr; lia.
  - exfalso. destruct m as [e|c|t|q|o|s]; try contradiction. cbn in Hu. injection Hu as <-. cbn in Hr. destruct s; try contradiction; cbn in Hr; lia.
Qed.
Lemma c92_fresh_states k (ok : list (pick * str) -> bmsg -> Prop) b js : k = PackPage \/ (forall js m, ok js m -> js = []) -> history k ok b js ->
  b_state b = SelectInputType \/ b_state b = SelectInput \/ b_state b = SelectOutput -> b_count b = 0 /\ b_done b = 0.
Proof. intros Hk H Hs. eapply c92_fresh_lemma; eauto. destruct Hs as [->|[->| ->]]; cbn; lia. Qed.
Lemma c92_start_lemma b m b' j : builder_update b m = Ok (b', Some j) -> b_count b' = 0 /\ b_done b' = 0.
Proof.
  destruct m as [e|c|t|q|o|s]; cbn; try discriminate. destruct (b_input b); cbn; [|discriminate]. intros E. injection E as <- <-. split; reflexivity.
Qed.
