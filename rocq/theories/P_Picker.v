(** Pages with dialogs (C150). *)
From Verif Require Import M_Base M_Util M_Img M_Unpack M_Gui M_Picker S_Gui S_Picker P_Base P_Gui.
From Coq Require Import List Lia.
Local Open Scope N_scope.

(** A dialog that is open while no job runs: what it answers is offered by the page. *)
Definition fits (k : kind) (b : builder) (d : dialog) : Prop := exists v, builder_view k b = Ok v /\ click k v (d_button d) = Some d.
Lemma fits_offers k b d n m : fits k b d -> sends k (d_button d) (picked (d_kind d) n) = Some m -> exists v, builder_view k b = Ok v /\ offers v m.
Proof.
  intros (v & V & C) S. exists v. split; [exact V|]. unfold click in C. destruct (v_enabled v) eqn:E; [|discriminate]. destruct d as [x p]. cbn [d_button d_kind] in *.
  destruct (shown k v x) as [p'|] eqn:Sh; [|discriminate]. injection C as ->. unfold offers. split; [exact E|].
  destruct x; cbn [shown] in Sh.
  - destruct (v_input v) as [t|] eqn:Ei; [|discriminate]. injection Sh as <-. destruct t; cbn in S; injection S as <-; reflexivity.
  - destruct (v_output v) as [s|] eqn:Eo; [|discriminate]. injection Sh as <-. destruct k; cbn in S; injection S as <-; congruence.
Qed.
Definition quiet_dialogs (k : kind) (b : builder) (ds : list dialog) (js : list (pick * str)) : Prop :=
  ds = [] \/ exists d, ds = [d] /\ js = [] /\ fits k b d.
Lemma history_weaken k (ok ok' : list (pick * str) -> bmsg -> Prop) b js : (forall js m, ok js m -> ok' js m) -> history k ok b js -> history k ok' b js.
Proof.
  intros H. induction 1.
  - constructor.
  - eapply h_user; eauto.
  - eapply h_job; eauto.
  - eapply h_end; eauto.
Qed.
Definition waits (js : list (pick * str)) (m : bmsg) : Prop := js = [].
Lemma session_history k (may : list dialog -> list (pick * str) -> Prop) : (forall ds js, may ds js -> ds = [] /\ (k = PackPage \/ js = [])) ->
  forall b ds js, session k may b ds js -> history k waits b js /\ quiet_dialogs k b ds js.
Proof.
  intros Hm. assert (W : forall b js v, history k waits b js -> builder_view k b = Ok v -> v_enabled v = true -> k = PackPage \/ js = [] -> js = []).
  { intros b js v H V E [->|J]; [|exact J]. destruct js as [|j js]; [reflexivity|]. destruct (c89_jobs waits b (j :: js) H) as (_ & G). rewrite (G v) in E; [discriminate|discriminate|exact V]. }
  induction 1 as [|b ds js v t b' HS (IH & IQ) HM V E U|b ds js v x d HS (IH & IQ) HM V C|b ds1 d ds2 js c b' j HS (IH & IQ) A|b ds js m b' HS (IH & IQ) Hj Hs U|b ds js1 j js2 m b' HS (IH & IQ) Hs U].
  - split; [constructor|left; reflexivity].
  - destruct (Hm _ _ HM) as (-> & Hk). pose proof (W _ _ _ IH V E Hk) as ->. split; [|left; reflexivity].
    apply (h_user k waits b [] v (SetInputType t) b' None IH V); [split; [exact E|exact I]|reflexivity|exact U].
  - destruct (Hm _ _ HM) as (-> & Hk). split; [exact IH|]. right. exists d. assert (E : v_enabled v = true) by (unfold click in C; destruct (v_enabled v); [reflexivity|discriminate]).
    split; [reflexivity|]. split; [apply (W _ _ _ IH V E Hk)|]. exists v. split; [exact V|]. assert (d_button d = x) as ->; [|exact C].
    unfold click in C. rewrite E in C. destruct (shown k v x); [|discriminate]. injection C as <-. reflexivity.
  - destruct IQ as [IQ|(d' & IQ & -> & F)]; [destruct ds1; discriminate|].
    assert (ds1 = [] /\ ds2 = [] /\ d = d') as (-> & -> & <-).
    { destruct ds1 as [|a ds1]; [injection IQ as -> ->; auto|]. injection IQ as _ IQ. destruct ds1; discriminate. }
    split; [|left; reflexivity]. unfold answer in A. destruct c as [n|]; [|injection A as <- <-; exact IH].
    destruct (sends k (d_button d) (picked (d_kind d) n)) as [m|] eqn:S; [|injection A as <- <-; exact IH].
    destruct (fits_offers _ _ _ _ _ F S) as (v & V & O). apply (h_user k waits b [] v m b' j IH V O eq_refl A).
  - split; [apply (h_job k waits b js m b'); auto|]. left. destruct IQ as [->|(d & -> & -> & _)]; [reflexivity|congruence].
  - split; [apply (h_end k waits b js1 j js2 m b'); auto|]. left. destruct IQ as [->|(d & -> & Q & _)]; [reflexivity|]. destruct js1; discriminate.
Qed.
Lemma history_session k b js : history k waits b js -> session k (@modal_patient _) b [] js.
Proof.
  induction 1 as [|b js v m b' j HH IH V O Hw U|b js m b' HH IH Hj Hs U|b js1 j js2 m b' HH IH Hs U].
  - constructor.
  - unfold waits in Hw. subst js. destruct O as (E & O). assert (M : @modal_patient (pick * str) [] []) by (split; reflexivity).
    destruct m as [e|c|t|p|o|s]; try contradiction.
    + assert (j = None) as -> by (cbn in U; injection U as _ <-; reflexivity). apply (s_type k _ b [] [] v t b' IH M V E U).
    + assert (Cl : exists d, click k v InputButton = Some d /\ exists n, picked (d_kind d) n = p /\ d_button d = InputButton).
      { unfold click. rewrite E. cbn [shown]. destruct p as [n|n]; rewrite O; eexists; (split; [reflexivity|]); exists n; split; reflexivity. }
      destruct Cl as (d & Cl & n & Hp & Hb). pose proof (s_click k _ b [] [] v _ d IH M V Cl) as S1. apply (s_answer k _ b [] d [] [] (Some n) b' j S1). unfold answer. rewrite Hb, Hp. exact U.
    + destruct (v_output v) as [sg|] eqn:Eo; [|congruence]. assert (Cl : exists d, click k v OutputButton = Some d /\ sends k (d_button d) (picked (d_kind d) o) = Some (SetOutput o)).
      { unfold click. rewrite E. cbn [shown]. rewrite Eo. eexists. split; [reflexivity|]. destruct k; reflexivity. }
      destruct Cl as (d & Cl & Hs). pose proof (s_click k _ b [] [] v _ d IH M V Cl) as S1. apply (s_answer k _ b [] d [] [] (Some o) b' j S1). unfold answer. rewrite Hs. exact U.
  - apply (s_job k _ b [] js m b' IH Hj Hs U).
  - apply (s_end k _ b [] js1 j js2 m b' IH Hs U).
Qed.
Lemma session_weaken k (may may' : list dialog -> list (pick * str) -> Prop) b ds js : (forall ds js, may ds js -> may' ds js) -> session k may b ds js -> session k may' b ds js.
Proof.
  intros H. induction 1.
  - constructor.
  - eapply s_type; eauto.
  - eapply s_click; eauto.
  - eapply s_answer; eauto.
  - eapply s_job; eauto.
  - eapply s_end; eauto.
Qed.
Lemma history_waits b js ok : history PackPage ok b js -> (forall js m, ok js m) -> history PackPage waits b js.
Proof.
  intros HH Hok. induction HH as [|b js v m b' j HH IH V O Hw U|b js m b' HH IH Hj Hs U|b js1 j js2 m b' HH IH Hs U].
  - constructor.
  - assert (js = []) as ->.
    { destruct js as [|x js]; [reflexivity|]. destruct (c89_jobs ok b (x :: js) HH) as (_ & G). destruct O as (E & _). rewrite (G v) in E; [discriminate|discriminate|exact V]. }
    eapply h_user; eauto. reflexivity.
  - eapply h_job; eauto.
  - eapply h_end; eauto.
Qed.
Lemma c150_pack_lemma b js : (exists ds, session PackPage (@modal _) b ds js) <-> history PackPage (fun _ _ => True) b js.
Proof.
  split.
  - intros (ds & HS). apply (history_weaken _ waits); [auto|]. apply (session_history PackPage (@modal _)) in HS; [apply HS|]. intros ds' js' ->. auto.
  - intros HH. exists []. apply (session_weaken _ (@modal_patient _)); [intros ds js' (-> & _); reflexivity|]. apply history_session. apply (history_waits b js (fun _ _ => True)); auto.
Qed.
Lemma c150_compress_lemma b js : (exists ds, session CompressPage (@modal_patient _) b ds js) <-> history CompressPage (fun js _ => js = []) b js.
Proof.
  split.
  - intros (ds & HS). apply (session_history CompressPage (@modal_patient _)) in HS; [apply HS|]. intros ds' js' (-> & ->). auto.
  - intros HH. exists []. apply history_session. exact HH.
Qed.
Lemma c150_jobs_lemma b ds js : session PackPage (@modal _) b ds js -> (length js <= 1)%nat /\ (length ds <= 1)%nat /\ (ds = [] \/ js = []).
Proof.
  intros HS. destruct (session_history PackPage (@modal _)) with (b := b) (ds := ds) (js := js) as (HH & HQ); [intros ds' js' ->; auto|exact HS|].
  split; [apply (c89_jobs waits b js HH)|]. destruct HQ as [->|(d & -> & -> & _)]; cbn; auto with arith.
Qed.

(** ** Unpacking *)
Definition ufits (u : unpacker) (d : dialog) : Prop := uclick (unpacker_view u) (d_button d) = Some d.
Definition uquiet (u : unpacker) (ds : list dialog) (js : list (str * str)) : Prop := ds = [] \/ exists d, ds = [d] /\ js = [] /\ ufits u d.
Lemma ufits_offers u d n m : ufits u d -> usends (d_button d) (picked (d_kind d) n) = Some m -> uoffers (unpacker_view u) m.
Proof.
  intros C S. unfold ufits, uclick in C. destruct (uv_enabled (unpacker_view u)) eqn:E; [|discriminate]. destruct d as [x p]. cbn [d_button d_kind] in *. unfold uoffers. split; [exact E|].
  destruct x; cbn [ushown] in C.
  - injection C as <-. cbn in S. injection S as <-. exact I.
  - destruct (uv_output (unpacker_view u)); [|discriminate]. injection C as <-. cbn in S. injection S as <-. reflexivity.
Qed.
Lemma ucalm_enabled ok l u js : uhistory ok l u js -> uv_enabled (unpacker_view u) = true -> js = [].
Proof.
  intros H E. apply ucalm_history in H. destruct js as [|j [|]]; [reflexivity| |contradiction]. cbn in H. unfold unpacker_view in E. cbn [uv_enabled] in E. rewrite H in E. discriminate.
Qed.
Lemma c150_unpack_lemma u js : (exists ds, usession (fun ds => ds = []) u ds js) <-> exists l, uhistory (fun _ _ => True) l u js.
Proof.
  split.
  - intros (ds & HS). assert (G : (exists l, uhistory (fun _ _ => True) l u js) /\ uquiet u ds js); [|apply G].
    induction HS as [|u ds js x d HS ((l & IH) & IQ) HM C|u ds1 d ds2 js c u' j HS ((l & IH) & IQ) A|u ds js e u' HS ((l & IH) & IQ) Hj U|u ds js u' HS ((l & IH) & IQ) Hj U|u ds js1 j js2 s u' HS ((l & IH) & IQ) Hs U].
    + split; [exists []; constructor|left; reflexivity].
    + split; [exists l; exact IH|]. subst ds. right. exists d. assert (E : uv_enabled (unpacker_view u) = true) by (unfold uclick in C; destruct (uv_enabled (unpacker_view u)); [reflexivity|discriminate]).
      split; [reflexivity|]. split; [eapply ucalm_enabled; eauto|]. unfold ufits. assert (d_button d = x) as ->; [|exact C]. unfold uclick in C. rewrite E in C. destruct (ushown (unpacker_view u) x); [|discriminate]. injection C as <-. reflexivity.
    + destruct IQ as [IQ|(d' & IQ & -> & F)]; [destruct ds1; discriminate|].
      assert (ds1 = [] /\ ds2 = [] /\ d = d') as (-> & -> & <-).
      { destruct ds1 as [|a ds1]; [injection IQ as -> ->; auto|]. injection IQ as _ IQ. destruct ds1; discriminate. }
      split; [|left; reflexivity]. unfold uanswer in A. destruct c as [n|]; [|injection A as <- <-; exists l; exact IH].
      destruct (usends (d_button d) (picked (d_kind d) n)) as [m|] eqn:S; [|injection A as <- <-; exists l; exact IH].
      exists (m :: l). apply (uh_user _ l u [] m u' j IH (ufits_offers _ _ _ _ F S) I A).
    + split; [exists l; apply (uh_job _ l u js e u' IH Hj U)|]. left. destruct IQ as [->|(d & -> & -> & _)]; [reflexivity|congruence].
    + split; [exists l; apply (uh_state _ l u js u' IH Hj U)|]. left. destruct IQ as [->|(d & -> & -> & _)]; [reflexivity|congruence].
    + split; [exists l; apply (uh_end _ l u js1 j js2 s u' IH Hs U)|]. left. destruct IQ as [->|(d & -> & Q & _)]; [reflexivity|]. destruct js1; discriminate.
  - intros (l & HH). exists []. induction HH as [|l u js m u' j HH IH O Hw U|l u js e u' HH IH Hj U|l u js u' HH IH Hj U|l u js1 j js2 s u' HH IH Hs U].
    + constructor.
    + destruct O as (E & O). destruct m as [e|p|o|s]; try contradiction.
      * destruct p as [n|n]; [|contradiction]. assert (Cl : uclick (unpacker_view u) InputButton = Some (mkDialog InputButton OpenFile)) by (unfold uclick; rewrite E; reflexivity).
        pose proof (us_click _ u [] js _ _ IH eq_refl Cl) as S1. apply (us_answer _ u [] _ [] js (Some n) u' j S1). exact U.
      * assert (Cl : uclick (unpacker_view u) OutputButton = Some (mkDialog OutputButton OpenDirectory)) by (unfold uclick; rewrite E; cbn [ushown]; rewrite O; reflexivity).
        pose proof (us_click _ u [] js _ _ IH eq_refl Cl) as S1. apply (us_answer _ u [] _ [] js (Some o) u' j S1). exact U.
    + apply (us_job _ u [] js e u' IH Hj U).
    + apply (us_state _ u [] js u' IH Hj U).
    + apply (us_end _ u [] js1 j js2 s u' IH Hs U).
Qed.
