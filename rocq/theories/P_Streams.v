(** Proofs about compressing in the browser (C168). *)
From Verif Require Import M_Base M_Util M_Read M_Img M_Dev M_Web M_Parts M_Streams S_Dev S_Parts S_Streams.
From Verif Require Import P_Base P_Parts.
From Coq Require Import Init.Byte Lia.
Local Open Scope N_scope.

Lemma stream_file data pos b : b <> [] -> stream_write data pos b = file_write data pos b.
Proof. destruct b; [contradiction|reflexivity]. Qed.

(** ** Lists *)
Lemma nth_put {A} (x : A) : forall i l j, nth_error l i <> None -> nth_error (put_nth i x l) j = if Nat.eqb i j then Some x else nth_error l j.
Proof.
  induction i as [|i IH]; intros [|y l] j H; cbn [nth_error] in H; try congruence; destruct j as [|j]; cbn [put_nth nth_error Nat.eqb]; try reflexivity. apply IH. exact H.
Qed.
Lemma length_put {A} (x : A) : forall i l, length (put_nth i x l) = length l.
Proof. induction i as [|i IH]; intros [|y l]; cbn [put_nth length]; auto. Qed.
Lemma nth_upd {A} (g : A -> A) : forall i l j, nth_error (upd i g l) j = if Nat.eqb i j then option_map g (nth_error l j) else nth_error l j.
Proof.
  induction i as [|i IH]; intros [|y l] [|j]; cbn [upd nth_error Nat.eqb option_map]; try reflexivity; [destruct (Nat.eqb i j); reflexivity|]. apply IH.
Qed.
Lemma length_upd {A} (g : A -> A) : forall i l, length (upd i g l) = length l.
Proof. induction i as [|i IH]; intros [|y l]; cbn [upd length]; auto. Qed.

(** ** What is in streams and files *)
Section Weather.
Context (W : weather).
(** [o]: whether the file is open; [f]: what was asked for. *)
Definition state (i : nat) (p : spart) (f : list byte) (o : bool) : Prop :=
  match p with
  | mkSpart (Some w) b => ws_data w = f /\ b = w_old W i /\ o = true
  | mkSpart None b => b = f /\ o = false
  end.
Definition states (ps : list spart) (fs : list (list byte)) (os : list bool) : Prop :=
  length fs = length ps /\ length os = length ps
  /\ forall i p, nth_error ps i = Some p -> exists f o, nth_error fs i = Some f /\ nth_error os i = Some o /\ state i p f o.

Definition opens (c : call) (o : list bool) : list bool :=
  match c with Create => o ++ [true] | Put _ _ _ => o | Close i => firstn i o ++ [false] ++ skipn (i + 1) o end.
Lemma opens_put i (o : list bool) : nth_error o i <> None -> firstn i o ++ [false] ++ skipn (i + 1) o = put_nth i false o.
Proof.
  revert o. induction i as [|i IH]; intros [|x o] H; cbn [nth_error] in H; try congruence; [reflexivity|].
  cbn [firstn app put_nth]. f_equal. exact (IH o H).
Qed.
Lemma call_states n c ps fs os ps' u : substantial c -> states ps fs os -> s_call W n c ps = (ps', Ok u) -> states ps' (asks_for c fs) (opens c os).
Proof.
  intros HS (L1 & L2 & HF). destruct c as [|i pos b|i]; cbn [s_call].
  - destruct (negb _); [discriminate|]. destruct (negb _); [discriminate|]. intros [= <- _]. cbn [asks_for opens]. split; [|split].
    + rewrite !app_length, L1. reflexivity.
    + rewrite !app_length, L2. reflexivity.
    + intros i p E. destruct (Nat.lt_ge_cases i (length ps)) as [Hi|Hi].
      * rewrite nth_error_app1 in E by exact Hi. rewrite !nth_error_app1 by lia. exact (HF i p E).
      * rewrite nth_error_app2 in E by exact Hi. destruct (i - length ps)%nat as [|k] eqn:Ei; [|destruct k; discriminate E]. injection E as <-.
        rewrite !nth_error_app2 by lia. replace (i - length fs)%nat with 0%nat by lia. replace (i - length os)%nat with 0%nat by lia.
        exists [], true. split; [reflexivity|]. split; [reflexivity|]. cbn. replace i with (length ps) by lia. auto.
  - destruct (nth_error ps i) as [[[w|] f0]|] eqn:En; try discriminate. destruct (w_calls W n); [|discriminate].
    cbn [web_write over]. intros [= <- _]. rewrite asks_upd. cbn [opens]. split; [|split].
    + rewrite length_upd, length_put. exact L1.
    + rewrite length_put. exact L2.
    + intros j p E. rewrite nth_put in E by congruence. rewrite nth_upd. destruct (Nat.eqb_spec i j) as [<-|Hij].
      * injection E as <-. destruct (HF i _ En) as (f & o & F1 & F2 & F3 & F4 & F5). rewrite F1, F2. cbn [option_map]. eexists. exists o.
        split; [reflexivity|]. split; [reflexivity|]. cbn [state ws_data]. split; [|auto]. rewrite F3. apply stream_file. exact HS.
      * exact (HF j p E).
  - destruct (nth_error ps i) as [[[w|] f0]|] eqn:En; try discriminate. destruct (w_calls W n); [|discriminate].
    intros [= <- _]. cbn [asks_for opens]. destruct (HF i _ En) as (f & o & F1 & F2 & F3 & F4 & F5). rewrite opens_put by congruence. split; [|split].
    + rewrite length_put. exact L1.
    + rewrite !length_put. exact L2.
    + intros j p E. rewrite nth_put in E by congruence. rewrite nth_put by congruence. destruct (Nat.eqb_spec i j) as [<-|Hij].
      * injection E as <-. exists f, false. split; [exact F1|]. split; [reflexivity|]. cbn [state]. auto.
      * exact (HF j p E).
Qed.
Lemma left_opens o c cs : left_open o (c :: cs) = left_open (opens c o) cs.
Proof. destruct c; reflexivity. Qed.
Lemma calls_states cs : forall n ps fs os ps' u, Forall substantial cs -> states ps fs os -> s_calls W n cs ps = (ps', Ok u) ->
  states ps' (fold_left (fun fs c => asks_for c fs) cs fs) (left_open os cs).
Proof.
  induction cs as [|c cs IH]; intros n ps fs os ps' u HS HF; cbn [s_calls]; [intros [= <- _]; exact HF|].
  inversion HS as [|? ? HS1 HS2]; subst. destruct (s_call W n c ps) as [ps1 r] eqn:E. destruct r as [v| | |]; try discriminate. rewrite left_opens. cbn [fold_left].
  apply IH; [exact HS2|]. eapply call_states; eauto.
Qed.
Lemma states_nil : states [] [] [].
Proof. split; [reflexivity|]. split; [reflexivity|]. intros [|i] p E; discriminate E. Qed.

Lemma c168_lemma cs files u : Forall substantial cs -> write_streams W cs = (files, Ok u) ->
  length files = length (asked_for cs)
  /\ forall i f, nth_error files i = Some f ->
       nth_error (left_open [] cs) i = Some false /\ nth_error (asked_for cs) i = Some f
       \/ nth_error (left_open [] cs) i = Some true /\ f = w_old W i.
Proof.
  intros HS. unfold write_streams. destruct (s_calls W 0 cs []) as [ps r] eqn:E. intros [= <- ->].
  destruct (calls_states cs 0 [] [] [] ps u HS states_nil E) as (L1 & L2 & HF). split; [rewrite map_length; symmetry; exact L1|].
  intros i f En. rewrite nth_error_map in En. destruct (nth_error ps i) as [[[w|] b]|] eqn:Ep; try discriminate En; injection En as <-;
    destruct (HF i _ Ep) as (f & o & F1 & F2 & F3); cbn [state] in F3.
  - right. destruct F3 as (_ & F4 & ->). auto.
  - left. destruct F3 as (-> & ->). auto.
Qed.
Lemma c168_all_lemma cs files u : Forall substantial cs -> Forall (fun o => o = false) (left_open [] cs) -> write_streams W cs = (files, Ok u) -> files = asked_for cs.
Proof.
  intros HS HO E. destruct (c168_lemma cs files u HS E) as (L & H).
  assert (G : forall i, nth_error files i = nth_error (asked_for cs) i).
  { intros i. destruct (nth_error files i) as [f|] eqn:En.
    - destruct (H i f En) as [(_ & F)|(F & _)]; [symmetry; exact F|]. apply nth_error_In in F. rewrite Forall_forall in HO. discriminate (HO _ F).
    - symmetry. apply nth_error_None. rewrite <- L. apply nth_error_None. exact En. }
  clear -G. revert G. generalize (asked_for cs). induction files as [|f files IH]; intros [|g l] G; [reflexivity|discriminate (G 0%nat)|discriminate (G 0%nat)|].
  f_equal; [specialize (G 0%nat); cbn in G; congruence|]. apply IH. intros i. exact (G (Datatypes.S i)).
Qed.

(** ** Failures *)
Lemma call_stays n c ps ps' r : s_call W n c ps = (ps', r) -> (forall u, r <> Ok u) -> ps' = ps.
Proof.
  destruct c as [|i pos b|i]; cbn [s_call]; intros E N.
  - destruct (negb _); [congruence|]. destruct (negb _); [congruence|]. injection E as _ <-. destruct (N tt); reflexivity.
  - destruct (nth_error ps i) as [[[w|] f0]|]; try congruence. destruct (w_calls W n); [|congruence]. cbn [web_write over] in E. injection E as _ <-. destruct (N tt); reflexivity.
  - destruct (nth_error ps i) as [[[w|] f0]|]; try congruence. destruct (w_calls W n); [|congruence]. injection E as _ <-. destruct (N tt); reflexivity.
Qed.
Lemma calls_stop cs : forall n ps ps' r, s_calls W n cs ps = (ps', r) -> (forall u, r <> Ok u) ->
  exists cs1 c cs2, cs = cs1 ++ c :: cs2 /\ s_calls W n cs1 ps = (ps', Ok tt).
Proof.
  induction cs as [|c cs IH]; intros n ps ps' r; cbn [s_calls]; [intros [= _ <-] N; destruct (N tt); reflexivity|].
  destruct (s_call W n c ps) as [ps1 r1] eqn:E1. intros E N. destruct r1 as [u|e|p|].
  - destruct (IH _ _ _ _ E N) as (cs1 & c' & cs2 & -> & H). exists (c :: cs1), c', cs2. split; [reflexivity|]. cbn [s_calls]. rewrite E1. exact H.
  - injection E as <- _. exists [], c, cs. split; [reflexivity|]. cbn [s_calls]. rewrite (call_stays _ _ _ _ _ E1); [reflexivity|discriminate].
  - injection E as <- _. exists [], c, cs. split; [reflexivity|]. cbn [s_calls]. rewrite (call_stays _ _ _ _ _ E1); [reflexivity|discriminate].
  - injection E as <- _. exists [], c, cs. split; [reflexivity|]. cbn [s_calls]. rewrite (call_stays _ _ _ _ _ E1); [reflexivity|discriminate].
Qed.
Lemma c168_failed_lemma cs files r : Forall substantial cs -> write_streams W cs = (files, r) -> (forall u, r <> Ok u) ->
  exists cs1 c cs2, cs = cs1 ++ c :: cs2
    /\ forall i f, nth_error files i = Some f ->
       nth_error (left_open [] cs1) i = Some false /\ nth_error (asked_for cs1) i = Some f
       \/ nth_error (left_open [] cs1) i = Some true /\ f = w_old W i.
Proof.
  intros HS. unfold write_streams. destruct (s_calls W 0 cs []) as [ps r'] eqn:E. intros [= <- <-] N.
  destruct (calls_stop _ _ _ _ _ E N) as (cs1 & c & cs2 & -> & H). exists cs1, c, cs2. split; [reflexivity|].
  apply Forall_app in HS as (HS & _). apply (c168_lemma cs1 (map p_bytes ps) tt HS). unfold write_streams. rewrite H. reflexivity.
Qed.

(** ** Without failures *)
Definition open_s (p : spart) : bool := match p_stream p with Some _ => true | None => false end.
Lemma fair_calls cs : fair W -> forall n ps, in_order (map open_s ps) cs -> exists ps', s_calls W n cs ps = (ps', Ok tt).
Proof.
  intros (F1 & F2 & F3). induction cs as [|c cs IH]; intros n ps H; [exists ps; reflexivity|]. cbn [s_calls]. destruct c as [|i pos b|i]; cbn [in_order s_call] in *.
  - rewrite F1, F2. cbn [negb]. apply IH. rewrite map_app. exact H.
  - destruct H as (Hn & H). rewrite nth_error_map in Hn. destruct (nth_error ps i) as [[[w|] f]|] eqn:En; try discriminate Hn. rewrite F3. cbn [web_write over].
    apply IH. clear -H En. replace (map open_s (put_nth i _ ps)) with (map open_s ps); [exact H|clear H].
    revert i En. induction ps as [|p ps IH]; intros [|i] En; cbn [nth_error put_nth map] in *; try discriminate; [injection En as ->; reflexivity|]. f_equal. apply IH. exact En.
  - destruct H as (Hn & H). rewrite nth_error_map in Hn. destruct (nth_error ps i) as [[[w|] f]|] eqn:En; try discriminate Hn. rewrite F3.
    apply IH. rewrite opens_put in H by (rewrite nth_error_map, En; discriminate). clear -H En. replace (map open_s (put_nth i _ ps)) with (put_nth i false (map open_s ps)); [exact H|clear H].
    revert i En. induction ps as [|p ps IH]; intros [|i] En; cbn [nth_error put_nth map] in *; try discriminate; [reflexivity|]. f_equal. apply IH. exact En.
Qed.
End Weather.
Lemma c168_fair_lemma W cs : fair W -> in_order [] cs -> exists files, write_streams W cs = (files, Ok tt).
Proof. intros F O. destruct (fair_calls W cs F 0 [] O) as (ps & E). exists (map p_bytes ps). unfold write_streams. rewrite E. reflexivity. Qed.
