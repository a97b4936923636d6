(** Proofs of C174. *)
From Verif Require Import M_Base M_Util M_Layout M_Avl M_Sector M_Dirtab M_Read M_Img M_Dev M_Trie M_Cli M_Lines.
From Verif Require Import S_Read S_Img S_Lines.
From Verif Require Import P_Base P_Events P_Progress.
From Coq Require Import Init.Byte Lia Strings.String.
From Coq Require Import List.
Local Close Scope string_scope.
Local Open Scope N_scope.

Definition tale_of (e : event) : tale :=
  match e with EDirAdded p s => (true, p, s) | EFileAdded p s => (false, p, s) | _ => (true, [], 0) end.
Definition adds (e : event) : Prop := is_dir_added e = true \/ is_file_added e = true.

Lemma lines_adds plus show n : forall body i out, Forall adds body ->
  fold_left (on_event plus show) body ((i, n), out) = ((i + len body, n), out ++ numbered show (i + 1) n (map tale_of body)).
Proof.
  induction body as [|e body IH]; intros i out H; [cbn; rewrite app_nil_r, N.add_0_r; reflexivity|].
  inversion H as [|? ? He H']; subst. cbn [fold_left map numbered]. replace (len (e :: body)) with (1 + len body) by (unfold len; cbn [length]; lia).
  destruct e; try (destruct He; discriminate); cbn [on_event tale_of]; rewrite IH by exact H'; rewrite N.add_assoc, <- app_assoc; reflexivity.
Qed.
Lemma lines_quiet plus show ns st : fold_left (on_event plus show) (map EDiscoveredDirectory ns) st = st.
Proof. induction ns as [|n ns IH]; [reflexivity|]. cbn [map fold_left]. destruct st as [[a b] c]. exact IH. Qed.

Lemma adds_len body : Forall adds body -> len body = len (filter is_file_added body) + len (filter is_dir_added body).
Proof.
  induction 1 as [|e body He _ IH]; [reflexivity|]. replace (len (e :: body)) with (1 + len body) by (unfold len; cbn [length]; lia).
  destruct e; try (destruct He; discriminate); cbn [filter is_file_added is_dir_added]; unfold len in *; cbn [length]; lia.
Qed.
Lemma adds_nodup body : Forall adds body -> NoDup (filter is_dir_added body) -> NoDup (filter is_file_added body) -> NoDup (map tale_of body).
Proof.
  induction 1 as [|e body He HF IH]; [constructor|]. intros N1 N2. cbn [map].
  assert (X : forall e', In e' body -> tale_of e' = tale_of e -> e' = e).
  { intros e' Hin E. rewrite Forall_forall in HF. specialize (HF _ Hin). destruct e; try (destruct He; discriminate); destruct e'; try (destruct HF; discriminate); cbn in E; congruence. }
  assert (Y : ~ In e body /\ NoDup (filter is_dir_added body) /\ NoDup (filter is_file_added body)).
  { destruct e; try (destruct He; discriminate); cbn [filter is_dir_added is_file_added] in N1, N2.
    - inversion N1 as [|? ? K K']; subst. ssplit; auto. intros Hin. apply K. apply filter_In. auto.
    - inversion N2 as [|? ? K K']; subst. ssplit; auto. intros Hin. apply K. apply filter_In. auto. }
  destruct Y as (Y1 & Y2 & Y3). constructor; [|auto]. intros Hin. apply in_map_iff in Hin as (e' & E & Hin). apply Y1. rewrite <- (X _ Hin E). exact Hin.
Qed.
Lemma tale_in body : Forall adds body -> forall p s, (In (true, p, s) (map tale_of body) <-> In (EDirAdded p s) body) /\ (In (false, p, s) (map tale_of body) <-> In (EFileAdded p s) body).
Proof.
  intros HF p s. rewrite Forall_forall in HF. split; (split; [intros Hin; apply in_map_iff in Hin as (e & E & Hin); specialize (HF _ Hin); destruct e; try (destruct HF; discriminate); cbn in E; try discriminate; injection E as <- <-; exact Hin|]).
  - intros Hin. apply in_map_iff. exists (EDirAdded p s). auto.
  - intros Hin. apply in_map_iff. exists (EFileAdded p s). auto.
Qed.

Lemma c174_lemma plus show m t fs fuel img evs : source t -> presents fs t -> copies fs t ->
  create_xdvdfs_image fuel m file_wdev fs ([], []) = ((img, evs), Ok tt) ->
  exists l v, progress_lines plus show evs = numbered show 1 (len l) l /\ NoDup l /\ read_volume (file_dev img) = Ok v
   /\ (forall p s, In (true, p, s) l <-> exists cs r, at_path t p (FDir cs) /\ region_at (file_dev img) (v_root v) p r /\ r_sector r = s)
   /\ (forall p s, In (false, p, s) l <-> p <> [] /\ exists t' r, at_path t p t' /\ region_at (file_dev img) (v_root v) p r /\ r_sector r = s).
Proof.
  intros Hs Hp Hc Hrun. destruct (c23_lemma m t fs fuel [] img evs Hs Hp Hc Hrun) as (b & v & Eb & _ & Hv & _ & HD & N1 & N2 & F1 & F2).
  destruct (pack_shape m t fs fuel img evs Hs Hp Hc Hrun) as (ns & n & k & body & Es & Hb & Hn). cbn [app] in Eb.
  assert (E : b = map EDiscoveredDirectory ns ++ [EFileCount n; EDirCount k] ++ body).
  { rewrite Eb in Es. rewrite !app_assoc in Es. apply app_inj_tail in Es as (Es & _). rewrite Es, !app_assoc. reflexivity. }
  assert (HA : Forall adds body) by (apply Forall_forall; exact Hb).
  assert (Z1 : filter is_dir_added (map EDiscoveredDirectory ns) = []) by (clear; induction ns; cbn; auto).
  assert (Z2 : filter is_file_added (map EDiscoveredDirectory ns) = []) by (clear; induction ns; cbn; auto).
  assert (D1 : filter is_dir_added b = filter is_dir_added body) by (rewrite E, !filter_app, Z1; reflexivity).
  assert (D2 : filter is_file_added b = filter is_file_added body) by (rewrite E, !filter_app, Z2; reflexivity).
  assert (Hk : k = len (filter is_dir_added body)).
  { rewrite <- D1. apply HD. rewrite E. apply in_or_app. right. right. left. reflexivity. }
  assert (HI : forall e, adds e -> In e b <-> In e body).
  { intros e He. rewrite E, !in_app_iff. split; [|auto]. intros [X|[X|X]]; [|destruct X as [<-|[<-|[]]]; destruct He; discriminate|exact X].
    apply in_map_iff in X as (x & <- & _). destruct He; discriminate. }
  exists (map tale_of body), v. rewrite D1 in N1. rewrite D2 in N2. ssplit; auto using adds_nodup.
  - unfold progress_lines. rewrite Es, fold_left_app, lines_quiet, fold_left_app. cbn [fold_left on_event]. rewrite fold_left_app.
    replace (if plus then 0 + n else n) with n by (destruct plus; reflexivity). rewrite lines_adds by exact HA. cbn [fold_left on_event snd app].
    replace (n + k) with (len (map tale_of body)); [reflexivity|]. unfold len at 1. rewrite map_length. fold (len body). rewrite (adds_len _ HA), Hn, Hk. reflexivity.
  - intros p s. rewrite <- F1, HI by (left; reflexivity). apply tale_in. exact HA.
  - intros p s. rewrite <- F2, HI by (right; reflexivity). apply tale_in. exact HA.
Qed.

(** ** Any run *)
Lemma lines_number plus show : forall evs i n out, exists ls, snd (fold_left (on_event plus show) evs ((i, n), out)) = out ++ ls
  /\ forall k x, nth_error ls k = Some x -> exists n' y, x = line_of show (i + N.of_nat k + 1) n' y.
Proof.
  induction evs as [|e evs IH]; intros i n out; [exists []; cbn; rewrite app_nil_r; split; [reflexivity|intros [|k] x; discriminate]|].
  cbn [fold_left]. destruct e as [a|a|a|p s|p s|]; cbn [on_event]; try apply IH.
  - destruct (IH (i + 1) n (out ++ [added_line show (text "dir") (i + 1) n p s])) as (ls & E & H). rewrite <- app_assoc in E. eexists. split; [exact E|].
    intros [|k] x Hx; cbn [app nth_error] in Hx; [injection Hx as <-; exists n, (true, p, s); cbn [N.of_nat]; rewrite N.add_0_r; reflexivity|].
    apply H in Hx as (n' & y & ->). exists n', y. f_equal. lia.
  - destruct (IH (i + 1) n (out ++ [added_line show (text "file") (i + 1) n p s])) as (ls & E & H). rewrite <- app_assoc in E. eexists. split; [exact E|].
    intros [|k] x Hx; cbn [app nth_error] in Hx; [injection Hx as <-; exists n, (false, p, s); cbn [N.of_nat]; rewrite N.add_0_r; reflexivity|].
    apply H in Hx as (n' & y & ->). exists n', y. f_equal. lia.
Qed.
Lemma c174_numbers_lemma plus show evs k x : nth_error (progress_lines plus show evs) k = Some x -> exists n y, x = line_of show (N.of_nat k + 1) n y.
Proof. unfold progress_lines. destruct (lines_number plus show evs 0 0 []) as (ls & -> & H). cbn [app]. intros Hx. apply H in Hx. exact Hx. Qed.

(** ** Runs that may fail *)
Definition emits {D A} (P : event -> Prop) (x : prog D A) : Prop := forall s s' r, x s = (s', r) -> exists new, snd s' = snd s ++ new /\ Forall P new.
Lemma emits_same {D A} P (x : prog D A) : (forall s s' r, x s = (s', r) -> snd s' = snd s) -> emits P x.
Proof. intros H s s' r E. exists []. rewrite app_nil_r. split; [eapply H; exact E|constructor]. Qed.
Lemma emits_lift {D A} P (r : res werr A) : emits P (@plift D A r).
Proof. apply emits_same. intros s s' q [= <- _]. reflexivity. Qed.
Lemma emits_ret {D A} P (a : A) : emits P (@pret D A a).
Proof. apply emits_same. intros s s' q [= <- _]. reflexivity. Qed.
Lemma emits_write {D} P (W : wdev D) off b : emits P (pwrite W off b).
Proof. apply emits_same. intros s s' r. unfold pwrite. destruct (dev_write W (fst s) off b). intros [= <- _]. reflexivity. Qed.
Lemma emits_len {D} P (W : wdev D) : emits P (M_Img.plen W).
Proof. apply emits_same. intros s s' r. unfold M_Img.plen. destruct (dev_len W (fst s)). intros [= <- _]. reflexivity. Qed.
Lemma emits_copy {D} P (fs : fsys D) p off n : emits P (pcopy fs p off n).
Proof. apply emits_same. intros s s' r. unfold pcopy. destruct (copy_in fs p (fst s) 0 off n). intros [= <- _]. reflexivity. Qed.
Lemma emits_report {D} (P : event -> Prop) e : P e -> emits P (@report D e).
Proof. intros H s s' r [= <- _]. exists [e]. split; [reflexivity|]. constructor; [exact H|constructor]. Qed.
Lemma emits_bind {D A B} P (x : prog D A) (k : A -> prog D B) : emits P x -> (forall a, emits P (k a)) -> emits P (pbind x k).
Proof.
  intros Hx Hk s s' r. unfold pbind. destruct (x s) as [s1 r1] eqn:E. destruct (Hx _ _ _ E) as (n1 & E1 & N1). destruct r1 as [a|e|q|]; try (intros [= <- _]; eauto).
  intros H. destruct (Hk a _ _ _ H) as (n2 & E2 & N2). exists (n1 ++ n2). rewrite E2, E1, <- app_assoc. split; [reflexivity|apply Forall_app; auto].
Qed.
Definition discovers (e : event) : Prop := exists n, e = EDiscoveredDirectory n.
Definition late (e : event) : Prop := adds e \/ e = EFinishedPacking.
Lemma emits_dirs {D} (fs : fsys D) fuel : forall dirs out, emits discovers (dir_tree_loop fuel fs dirs out).
Proof.
  induction fuel as [|fuel IH]; intros [|p dirs] out; cbn [dir_tree_loop]; try apply emits_ret; try apply emits_lift.
  apply emits_bind; [apply emits_lift|]. intros l. apply emits_bind; [apply emits_report; eexists; reflexivity|]. intros _. apply IH.
Qed.
Lemma emits_listing {D} (fs : fsys D) p listing : forall secs, emits late (add_listing fs p listing secs).
Proof.
  induction listing as [|e listing IH]; intros secs; cbn [add_listing]; [apply emits_ret|]. apply emits_bind; [apply emits_report; left; right; reflexivity|].
  intros _. destruct (l_is_dir e); [apply IH|]. apply emits_bind; [apply emits_copy|]. intros _. apply IH.
Qed.
Lemma emits_tables {D} m (W : wdev D) (fs : fsys D) tables : forall nf secs, emits late (add_tables m W fs tables nf secs).
Proof.
  induction tables as [|[p w] tables IH]; intros nf secs; cbn [add_tables]; [apply emits_ret|].
  apply emits_bind; [apply emits_lift|]. intros sec. apply emits_bind; [apply emits_lift|]. intros [tb nf'].
  apply emits_bind; [apply emits_report; left; left; reflexivity|]. intros _. apply emits_bind; [apply emits_write|]. intros _.
  apply emits_bind; [apply emits_listing|]. intros secs'. apply IH.
Qed.

Lemma lines_discover plus show : forall l st, Forall discovers l -> fold_left (on_event plus show) l st = st.
Proof. induction l as [|e l IH]; intros st H; [reflexivity|]. inversion H as [|? ? (n & ->) H']; subst. cbn [fold_left on_event]. destruct st as [[a b] c]. apply IH. exact H'. Qed.
Lemma lines_late plus show n : forall l i out, Forall late l -> exists ts, snd (fold_left (on_event plus show) l ((i, n), out)) = out ++ numbered show (i + 1) n ts.
Proof.
  induction l as [|e l IH]; intros i out H; [exists []; cbn; rewrite app_nil_r; reflexivity|]. inversion H as [|? ? He H']; subst. cbn [fold_left].
  destruct He as [He| ->]; [|cbn [on_event]; apply IH; exact H']. destruct e as [a|a|a|p s|p s|]; try (destruct He; discriminate); cbn [on_event].
  - destruct (IH (i + 1) (out ++ [added_line show (text "dir") (i + 1) n p s]) H') as (ts & ->). exists ((true, p, s) :: ts). rewrite <- app_assoc. reflexivity.
  - destruct (IH (i + 1) (out ++ [added_line show (text "file") (i + 1) n p s]) H') as (ts & ->). exists ((false, p, s) :: ts). rewrite <- app_assoc. reflexivity.
Qed.

Lemma c174_any_lemma D plus show fuel m (W : wdev D) (fs : fsys D) d d' evs r : create_xdvdfs_image fuel m W fs (d, []) = ((d', evs), r) ->
  exists n l, progress_lines plus show evs = numbered show 1 n l.
Proof.
  unfold create_xdvdfs_image. unfold pbind at 1. destruct (dir_tree fuel fs (d, [])) as [[d1 e1] r1] eqn:E1. destruct (emits_dirs fs fuel _ _ _ _ _ E1) as (n1 & X1 & F1). cbn [snd app] in X1. subst e1.
  assert (Q : forall d2 (r2 : res werr unit), ((d2, n1), r2) = ((d', evs), r) -> exists n l, progress_lines plus show evs = numbered show 1 n l).
  { intros d2 r2 [= _ <- _]. exists 0, []. unfold progress_lines. rewrite lines_discover by exact F1. reflexivity. }
  destruct r1 as [dt|x|x|]; try (apply Q). unfold pbind at 1. unfold create_dirent_tables, pbind at 1, plift at 1.
  destruct (map_err InvalidFileStructureError (foldM (table_step m) ([], 0) (rev dt))) as [[tables count]|x|x|]; try (apply Q).
  unfold pbind at 1 2, report at 1 2, pret at 1. cbn [fst snd].
  match goal with |- ?rest = _ -> _ => assert (EL : exists new, snd (fst rest) = (n1 ++ [EFileCount count]) ++ [EDirCount (len dt)] ++ new /\ Forall late new) end.
  { match goal with |- context [?p (d1, ?e)] => pose (K := p); assert (HK : emits late K) end.
    { unfold K. apply emits_bind; [apply emits_lift|]. intros [p w]. apply emits_bind; [apply emits_lift|]. intros rs. apply emits_bind; [apply emits_lift|].
      intros [nf rsec]. apply emits_bind; [apply emits_tables|]. intros _. apply emits_bind; [apply emits_write|]. intros _.
      apply emits_bind; [|intros _; apply emits_report; right; reflexivity]. unfold pad_image. apply emits_bind; [apply emits_len|]. intros z.
      destruct (0 <? z mod (32 * 2048)); [apply emits_write|apply emits_ret]. }
    fold K. match goal with |- context [K ?s] => destruct (K s) as [s' r'] eqn:EK end. destruct (HK _ _ _ EK) as (new & X & F). exists new. cbn [fst]. rewrite X. cbn [snd]. rewrite <- !app_assoc. auto. }
  destruct EL as (new & X & F). intros H. rewrite H in X. cbn [fst snd] in X. subst evs. unfold progress_lines. rewrite !fold_left_app, (lines_discover plus show n1 _ F1). cbn [fold_left on_event].
  destruct (lines_late plus show (count + len dt) new 0 [] F) as (ts & E). exists (count + len dt), ts. destruct plus; exact E.
Qed.
