(** The jobs of the pages (C142, C143). *)
From Verif Require Import M_Base M_Util M_Layout M_Read M_Img M_Cli M_Unpack M_Exiso M_Host M_Gui M_Jobs.
From Verif Require Import S_Gui S_Jobs.
From Verif Require Import P_Base P_Gui.
From Coq Require Import Init.Byte Lia.
From Coq Require Import List.
Local Open Scope N_scope.

(** ** What is said *)
Lemma says_progress k evs : Forall (job_says k) (map UpdateProgress evs).
Proof. induction evs; constructor; [exact I|assumption]. Qed.
Lemma says_compression cs : Forall (job_says CompressPage) (map UpdateCompression cs).
Proof. induction cs; constructor; [reflexivity|assumption]. Qed.
Lemma ends_told {A} k l (r : res str A) : Forall (job_says k) l -> calm_result r -> ends_once k (l ++ told r).
Proof. intros H Hr. destruct r as [a|e|p|]; try contradiction; cbn [told]; eexists _, _; (split; [reflexivity|]); split; auto; exact I. Qed.
Lemma ends_told0 {A} k (r : res str A) : calm_result r -> ends_once k (told r).
Proof. intros Hr. exact (ends_told k [] r (Forall_nil _) Hr). Qed.


Lemma web_pack_ends o evs r : calm_result (web_pack_result o r) -> ends_once PackPage (web_pack_job o evs r).
Proof.
  intros H. unfold web_pack_job. destruct o as [[]|e|p|]; cbn [web_pack_result] in H; try contradiction; [|apply ends_told0; exact I].
  rewrite app_assoc, app_comm_cons. apply ends_told; [|exact H]. constructor; [exact I|]. apply Forall_app. split; [apply says_progress|]. destruct r; constructor; [exact I|constructor].
Qed.
Lemma web_compress_ends o evs r cevs c : calm_result (web_compress_result o r c) -> ends_once CompressPage (web_compress_job o evs r cevs c).
Proof.
  intros H. unfold web_compress_job. destruct o as [[]|e|p|]; cbn [web_compress_result] in H; try contradiction; [|apply ends_told0; exact I].
  rewrite app_comm_cons. destruct r as [[]|e|p|]; try contradiction.
  - rewrite !app_comm_cons, !app_assoc. apply ends_told; [|exact H]. apply Forall_app. split; [apply Forall_app; split|].
    + constructor; [exact I|apply says_progress].
    + constructor; [reflexivity|apply says_compression].
    + destruct c; constructor; [exact I|constructor].
  - apply ends_told; [|exact I]. constructor; [exact I|apply says_progress].
Qed.
Lemma answered_some {E} (x : option str) : answered (invoke (Ok x : res E (option str))) = answer x.
Proof. destruct x; reflexivity. Qed.
Lemma calm_answer x : calm_result (answer x).
Proof. destruct x; exact I. Qed.
Lemma desk_pack_ends {E} evs (x : option str) : ends_once PackPage (desk_pack_job evs (Ok x : res E _)).
Proof.
  unfold desk_pack_job. rewrite answered_some, app_comm_cons. apply ends_told; [|apply calm_answer]. constructor; [exact I|apply says_progress].
Qed.
Lemma desk_compress_ends {E} evs cevs (x : option str) : ends_once CompressPage (desk_compress_job evs cevs (Ok x : res E _)).
Proof.
  unfold desk_compress_job. rewrite answered_some, !app_assoc, app_comm_cons. apply ends_told; [|apply calm_answer].
  constructor; [exact I|]. apply Forall_app. split; [apply says_progress|]. induction (desk_reports 0 cevs) as [|c cs IH]; [constructor|].
  cbn [map concat app]. constructor; [reflexivity|]. constructor; [reflexivity|exact IH].
Qed.

(** ** What is shown *)
Definition harmless_msg (m : bmsg) : Prop := match m with UpdateProgress _ | UpdateCompression _ | ChangeState _ => True | _ => False end.
Lemma update_ok b m : harmless_msg m -> exists b', builder_update b m = Ok (b', None).
Proof. destruct m; intros H; try contradiction; eexists; reflexivity. Qed.
Lemma receives_all ms : Forall harmless_msg ms -> forall b, exists b', receives b ms b'.
Proof.
  induction 1 as [|m ms Hm _ IH]; intros b; [exists b; constructor|]. destruct (update_ok b m Hm) as (b1 & H1). destruct (IH b1) as (b2 & H2). exists b2. econstructor; eauto.
Qed.
Lemma receives_app l1 l2 b b'' : receives b (l1 ++ l2) b'' <-> exists b', receives b l1 b' /\ receives b' l2 b''.
Proof.
  revert b. induction l1 as [|m l1 IH]; intros b; cbn [app].
  - split; [intros H; exists b; split; [constructor|exact H]|]. intros (b' & H1 & H2). inversion H1; subst. exact H2.
  - split.
    + intros H. inversion H as [|? ? b1 ? ? H1 H2]; subst. apply IH in H2 as (b' & H2 & H3). exists b'. split; [econstructor; eauto|exact H3].
    + intros (b' & H1 & H2). inversion H1 as [|? ? b1 ? ? H3 H4]; subst. econstructor; [exact H3|]. apply IH. exists b'. auto.
Qed.
Lemma says_harmless k m : job_says k m -> harmless_msg m.
Proof. destruct m as [e|c|t|p|n|s]; cbn; try contradiction; auto. Qed.
Lemma ends_harmless m : job_ends m -> harmless_msg m.
Proof. destruct m as [e|c|t|p|n|s]; cbn; try contradiction; auto. Qed.
Lemma once_received k ms b : ends_once k ms -> exists b', receives b ms b'.
Proof.
  intros (l & m & -> & H1 & H2). apply receives_all. apply Forall_app. split; [|constructor; [apply ends_harmless; exact H2|constructor]].
  eapply Forall_impl; [|exact H1]. intros x. apply says_harmless.
Qed.
Lemma told_shows l (r : res str unit) b b' : calm_result r -> receives b (l ++ told r) b' -> shows r (b_state b').
Proof.
  intros Hr H. apply receives_app in H as (b1 & _ & H). destruct r as [[]|e|p|]; try contradiction; cbn [told] in H; inversion H as [|? ? b2 ? ? H3 H4]; subst;
    inversion H4; subst; cbn in H3; injection H3 as <-; reflexivity.
Qed.
Lemma told_shows0 (r : res str unit) b b' : calm_result r -> receives b (told r) b' -> shows r (b_state b').
Proof. exact (told_shows [] r b b'). Qed.
Lemma web_pack_shows o evs r b b' : calm_result (web_pack_result o r) -> receives b (web_pack_job o evs r) b' -> shows (web_pack_result o r) (b_state b').
Proof.
  intros H. unfold web_pack_job. destruct o as [[]|e|p|]; cbn [web_pack_result] in *; try contradiction; [|intros K; exact (told_shows0 (Err e) b b' I K)].
  rewrite app_assoc, app_comm_cons. apply told_shows. exact H.
Qed.
Lemma web_compress_shows o evs r cevs c b b' : calm_result (web_compress_result o r c) -> receives b (web_compress_job o evs r cevs c) b' -> shows (web_compress_result o r c) (b_state b').
Proof.
  intros H. unfold web_compress_job. destruct o as [[]|e|p|]; cbn [web_compress_result] in *; try contradiction; [|intros K; exact (told_shows0 (Err e) b b' I K)].
  rewrite app_comm_cons. destruct r as [[]|e|p|]; try contradiction; [|apply told_shows; exact I].
  rewrite !app_comm_cons, !app_assoc. apply told_shows. exact H.
Qed.
Lemma desk_pack_shows {E} evs (x : option str) b b' : receives b (desk_pack_job evs (Ok x : res E _)) b' -> shows (answer x) (b_state b').
Proof. unfold desk_pack_job. rewrite answered_some, app_comm_cons. apply told_shows, calm_answer. Qed.
Lemma desk_compress_shows {E} evs cevs (x : option str) b b' : receives b (desk_compress_job evs cevs (Ok x : res E _)) b' -> shows (answer x) (b_state b').
Proof. unfold desk_compress_job. rewrite answered_some, !app_assoc, app_comm_cons. apply told_shows, calm_answer. Qed.

Lemma c142_pack_lemma {E} ms r : (exists o evs r0, ms = web_pack_job o evs r0 /\ r = web_pack_result o r0 /\ calm_result r) \/ (exists evs x, ms = desk_pack_job evs (Ok x : res E _) /\ r = answer x) ->
  ends_once PackPage ms /\ forall b, exists b', receives b ms b' /\ shows r (b_state b').
Proof.
  intros H. assert (HE : ends_once PackPage ms) by (destruct H as [(o & evs & r0 & -> & -> & H)|(evs & x & -> & _)]; [apply web_pack_ends; exact H|apply desk_pack_ends]).
  split; [exact HE|]. intros b. destruct (once_received _ _ b HE) as (b' & Hb). exists b'. split; [exact Hb|].
  destruct H as [(o & evs & r0 & -> & -> & H)|(evs & x & -> & ->)]; [eapply web_pack_shows; eauto|eapply desk_pack_shows; eauto].
Qed.
Lemma c142_compress_lemma {E} ms r : (exists o evs r0 cevs c, ms = web_compress_job o evs r0 cevs c /\ r = web_compress_result o r0 c /\ calm_result r) \/ (exists evs cevs x, ms = desk_compress_job evs cevs (Ok x : res E _) /\ r = answer x) ->
  ends_once CompressPage ms /\ forall b, exists b', receives b ms b' /\ shows r (b_state b').
Proof.
  intros H. assert (HE : ends_once CompressPage ms) by (destruct H as [(o & evs & r0 & cevs & c & -> & -> & H)|(evs & cevs & x & -> & _)]; [apply web_compress_ends; exact H|apply desk_compress_ends]).
  split; [exact HE|]. intros b. destruct (once_received _ _ b HE) as (b' & Hb). exists b'. split; [exact Hb|].
  destruct H as [(o & evs & r0 & cevs & c & -> & -> & H)|(evs & cevs & x & -> & ->)]; [eapply web_compress_shows; eauto|eapply desk_compress_shows; eauto].
Qed.

(** Nothing is enabled before the end. *)
Lemma says_packing m b b' : job_says PackPage m -> is_packing (b_state b) = true -> builder_update b m = Ok (b', None) -> is_packing (b_state b') = true.
Proof.
  destruct m as [e|c|t|p|n|s]; cbn; try contradiction; try discriminate.
  - intros _ H E. injection E as <-. destruct e; cbn [b_state is_packing]; auto.
  - destruct s; try contradiction; try discriminate. intros _ _ E. injection E as <-. reflexivity.
Qed.
Lemma said_packing l : Forall (job_says PackPage) l -> forall b b', is_packing (b_state b) = true -> receives b l b' -> is_packing (b_state b') = true.
Proof.
  induction 1 as [|m l Hm _ IH]; intros b b' Hb HR; inversion HR as [|? ? b1 ? ? H1 H2]; subst; [exact Hb|]. eapply IH; [|exact H2]. eapply says_packing; eauto.
Qed.
Lemma packing_stuck k b : is_packing (b_state b) = true -> stuck k b.
Proof.
  intros H v m Hv (Ho & _). unfold builder_view in Hv. destruct (if 1 <=? rank (b_state b) then _ else _) as [i|e|p|]; cbn [bind] in Hv; try discriminate.
  match type of Hv with bind ?x _ = _ => destruct x as [o|e|p|]; cbn [bind] in Hv; try discriminate end. injection Hv as <-. cbn [v_enabled] in Ho. rewrite H in Ho. discriminate.
Qed.
Lemma c142_busy_lemma ms l1 m l2 b b' : ends_once PackPage ms -> ms = l1 ++ m :: l2 -> is_packing (b_state b) = true -> receives b l1 b' -> stuck PackPage b'.
Proof.
  intros (l & e & -> & HF & _) E Hb HR. apply packing_stuck. eapply said_packing; [|exact Hb|exact HR].
  assert (K : exists l3, l = l1 ++ l3).
  { clear HF HR. destruct (@exists_last _ (m :: l2)) as (l3 & e' & E'); [discriminate|]. rewrite E' in E. rewrite app_assoc in E. apply app_inj_tail in E as (E & _). exists l3. exact E. }
  destruct K as (l3 & ->). apply Forall_app in HF as (HF & _). exact HF.
Qed.

(** ** Unpacking *)
Lemma ureceives_app l1 l2 u u'' : ureceives u (l1 ++ l2) u'' <-> exists u', ureceives u l1 u' /\ ureceives u' l2 u''.
Proof.
  revert u. induction l1 as [|m l1 IH]; intros u; cbn [app].
  - split; [intros H; exists u; split; [constructor|exact H]|]. intros (b' & H1 & H2). inversion H1; subst. exact H2.
  - split.
    + intros H. inversion H as [|? ? b1 ? ? H1 H2]; subst. apply IH in H2 as (b' & H2 & H3). exists b'. split; [econstructor; eauto|exact H3].
    + intros (b' & H1 & H2). inversion H1 as [|? ? b1 ? ? H3 H4]; subst. econstructor; [exact H3|]. apply IH. exists b'. auto.
Qed.
Lemma uprogress_all evs : forall u, exists u', ureceives u (map UUpdateProgress evs) u'.
Proof.
  induction evs as [|e evs IH]; intros u; [exists u; constructor|]. assert (exists u1, unpacker_update u (UUpdateProgress e) = Ok (u1, None)) as (u1 & H1) by (destruct e; eexists; reflexivity).
  destruct (IH u1) as (u2 & H2). exists u2. cbn [map]. econstructor; eauto.
Qed.
Lemma utold_shows (r : res str unit) u : calm_result r -> exists u', ureceives u (utold r) u' /\ ushows r (u_state u').
Proof. destruct r as [[]|e|p|]; intros H; try contradiction; eexists; (split; [econstructor; [reflexivity|constructor]|reflexivity]). Qed.
Lemma c142_unpack_lemma {E} ms r : (exists evs, ms = web_unpack_job evs r /\ calm_result r) \/ (exists evs x, ms = desk_unpack_job evs (Ok x : res E _) /\ r = answer x) ->
  forall u, exists u', ureceives u ms u' /\ ushows r (u_state u').
Proof.
  intros [(evs & -> & H)|(evs & x & -> & ->)] u.
  - destruct (uprogress_all evs u) as (u1 & H1). destruct (utold_shows r u1 H) as (u2 & H2 & H3). exists u2. split; [|exact H3]. apply ureceives_app. eauto.
  - unfold desk_unpack_job. rewrite answered_some. set (u0 := mkUnpacker Unpacking (u_input u) (u_output u) (u_count u) (u_done u)).
    destruct (uprogress_all evs u0) as (u1 & H1). destruct (utold_shows (answer x) u1 (calm_answer x)) as (u2 & H2 & H3). exists u2. split; [|exact H3].
    econstructor; [reflexivity|]. apply ureceives_app. eauto.
Qed.

(** ** Panics *)
Lemma c142_panic_lemma {E} evs p b b' : is_packing (b_state b) = true -> receives b (desk_pack_job evs (Panic p : res E _)) b' -> stuck PackPage b'.
Proof.
  intros Hb HR. apply packing_stuck. eapply said_packing; [|exact Hb|exact HR]. unfold desk_pack_job. cbn [invoke answered told]. rewrite app_nil_r. constructor; [exact I|apply says_progress].
Qed.

(** ** Percentages *)
Lemma c143_lemma m done count : done <= 42949672 -> percent32 m done count = Ok (percent done count).
Proof.
  intros H. unfold percent32, percent. destruct (count =? 0); [reflexivity|]. destruct (N.ltb_spec (100 * done) (2 ^ 32)) as [|K]; [reflexivity|].
  change (2 ^ 32) with 4294967296 in K. lia.
Qed.

(** ** Phases *)
(** Every report fits the phase, with [c] for compressing, [p] for packing. *)
Fixpoint phased (p c : bool) (ms : list bmsg) : Prop :=
  match ms with
  | [] => True
  | UpdateProgress _ :: ms => p = true /\ phased p c ms
  | UpdateCompression _ :: ms => c = true /\ phased p c ms
  | ChangeState s :: ms => phased (is_packing s) (match s with Compressing => true | _ => false end) ms
  | _ => False
  end.
Lemma phased_progress p c evs ms : p = true -> phased p c ms -> phased p c (map UpdateProgress evs ++ ms).
Proof. intros -> H. induction evs; cbn; auto. Qed.
Lemma phased_compression p c cs ms : c = true -> phased p c ms -> phased p c (map UpdateCompression cs ++ ms).
Proof. intros -> H. induction cs; cbn; auto. Qed.
Lemma phased_told {A} p c (r : res str A) : phased p c (told r).
Proof. destruct r; cbn; exact I. Qed.
Lemma phased_job k E ms : (exists o evs r0, ms = web_pack_job o evs r0) \/ (exists o evs r0 cevs c, ms = web_compress_job o evs r0 cevs c)
  \/ (exists evs x, ms = desk_pack_job evs (x : res E _)) \/ (exists evs cevs x, ms = desk_compress_job evs cevs (x : res E _)) -> phased k k ms.
Proof.
  intros [(o & evs & r & ->)|[(o & evs & r & cevs & c & ->)|[(evs & x & ->)|(evs & cevs & x & ->)]]].
  - unfold web_pack_job. destruct o as [[]|e|e|]; try apply phased_told. cbn [phased]. apply phased_progress; [reflexivity|]. destruct r as [[]|e|e|]; cbn; exact I.
  - unfold web_compress_job. destruct o as [[]|e|e|]; try apply phased_told. cbn [phased]. apply phased_progress; [reflexivity|]. destruct r as [[]|e|e|]; try apply phased_told. cbn [phased].
    apply phased_compression; [reflexivity|]. destruct c as [[]|e|e|]; cbn; exact I.
  - unfold desk_pack_job. cbn [phased]. apply phased_progress; [reflexivity|]. apply phased_told.
  - unfold desk_compress_job. cbn [phased]. apply phased_progress; [reflexivity|]. cbn [is_packing].
    assert (G : forall cs p c, phased p c (concat (map (fun c => [ChangeState Compressing; UpdateCompression c]) cs) ++ told (answered (invoke x)))).
    { induction cs as [|y cs IH]; intros p c; cbn; [apply phased_told|auto]. }
    apply G.
Qed.
Lemma phased_shown ms : forall p c b b' l1 m l2, phased p c ms -> (p = true -> is_packing (b_state b) = true) -> (c = true -> b_state b = Compressing) -> p && c = false ->
  ms = l1 ++ m :: l2 -> receives b l1 b' ->
  match m with UpdateProgress _ => is_packing (b_state b') = true | UpdateCompression _ => b_state b' = Compressing | _ => True end.
Proof.
  induction ms as [|m0 ms IH]; intros p c b b' l1 m l2 H Hp Hc Hpc E HR; [destruct l1; discriminate|].
  destruct l1 as [|x l1]; cbn [app] in E; injection E as -> E.
  - inversion HR; subst. destruct m; try exact I; destruct H as (-> & _); auto.
  - inversion HR as [|? ? b1 ? ? H1 H2]; subst. destruct x as [e|y|t|q|n|s]; cbn [phased] in H; try contradiction.
    + destruct H as (-> & H). assert (c = false) as -> by (destruct c; auto). eapply (IH true false b1); eauto; try discriminate. intros _. specialize (Hp eq_refl).
      cbn [builder_update] in H1. injection H1 as <-. destruct e; cbn; auto.
    + destruct H as (-> & H). assert (p = false) as -> by (destruct p; auto). eapply (IH false true b1); eauto; try discriminate. intros _. specialize (Hc eq_refl).
      cbn [builder_update] in H1. injection H1 as <-. destruct y; cbn; auto.
    + cbn [builder_update] in H1. injection H1 as <-. eapply IH; eauto; cbn [b_state]; [auto|destruct s; congruence|destruct s; reflexivity].
Qed.
Lemma c142_phase_lemma E ms : (exists o evs r0, ms = web_pack_job o evs r0) \/ (exists o evs r0 cevs c, ms = web_compress_job o evs r0 cevs c)
  \/ (exists evs x, ms = desk_pack_job evs (x : res E _)) \/ (exists evs cevs x, ms = desk_compress_job evs cevs (x : res E _)) ->
  forall l1 m l2 b b', ms = l1 ++ m :: l2 -> receives b l1 b' ->
  match m with UpdateProgress _ => is_packing (b_state b') = true | UpdateCompression _ => b_state b' = Compressing | _ => True end.
Proof. intros H l1 m l2 b b' E1 HR. eapply (phased_shown ms false false b b'); eauto; try discriminate. eapply phased_job; eauto. Qed.
