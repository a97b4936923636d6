(** Proofs about packing to other kinds of destinations (C170). *)
From Verif Require Import M_Base M_Util M_Layout M_Dirtab M_Read M_Img M_Dev M_Xfs M_Check M_Cli M_Unpack M_Host M_Web M_Gui M_Jobs M_Browser.
From Verif Require Import S_Img S_Web S_Generic.
From Verif Require Import P_Base P_Tree P_Pack P_More P_Order P_Repack P_Check P_Web.
From Coq Require Import Init.Byte.
Local Open Scope N_scope.

Section Two.
Context {D1 D2 : Type} (R : D1 -> D2 -> Prop).
Definition rel (s : D1 * list event) (s' : D2 * list event) : Prop := R (fst s) (fst s') /\ snd s = snd s'.
Definition pair_up {A} (x : prog D1 A) (y : prog D2 A) : Prop := forall s s', rel s s' -> rel (fst (x s)) (fst (y s')) /\ snd (x s) = snd (y s').

Lemma pu_bind {A B} (x : prog D1 A) y (k : A -> prog D1 B) k' : pair_up x y -> (forall a, pair_up (k a) (k' a)) -> pair_up (pbind x k) (pbind y k').
Proof.
  intros X K s s' H. unfold pbind. specialize (X s s' H). destruct (x s) as [s1 r], (y s') as [s2 r']. cbn [fst snd] in X. destruct X as (X & <-).
  destruct r as [a| | |]; cbn [fst snd]; auto. apply K. exact X.
Qed.
Lemma pu_lift {A} (r : res werr A) : pair_up (plift r) (plift r).
Proof. intros s s' H. split; [exact H|reflexivity]. Qed.
Lemma pu_ret {A} (a : A) : pair_up (pret a) (pret a).
Proof. intros s s' H. split; [exact H|reflexivity]. Qed.
Lemma pu_report e : pair_up (report e) (report e).
Proof. intros s s' (H & E). split; [|reflexivity]. split; [exact H|]. unfold report. cbn [fst snd]. rewrite E. reflexivity. Qed.

Context (W1 : wdev D1) (W2 : wdev D2) (HW : like_devices R W1 W2) (fs1 : fsys D1) (fs2 : fsys D2) (HF : like_sources R fs1 fs2).
Lemma pu_write off b : pair_up (pwrite W1 off b) (pwrite W2 off b).
Proof.
  intros [a evs] [a' evs'] (H & E). cbn [fst snd] in *. unfold pwrite. cbn [fst snd]. destruct (proj1 (HW _ _ H) off b) as (X & Y).
  destruct (dev_write W1 a off b) as [d r], (dev_write W2 a' off b) as [d' r']. cbn [fst snd] in *. subst. split; [split; auto|reflexivity].
Qed.
Lemma pu_len : pair_up (plen W1) (plen W2).
Proof.
  intros [a evs] [a' evs'] (H & E). cbn [fst snd] in *. unfold plen. cbn [fst snd]. destruct (proj2 (HW _ _ H)) as (X & Y).
  destruct (dev_len W1 a) as [d r], (dev_len W2 a') as [d' r']. cbn [fst snd] in *. subst. split; [split; auto|reflexivity].
Qed.
Lemma pu_copy p out size : pair_up (pcopy fs1 p out size) (pcopy fs2 p out size).
Proof.
  intros [a evs] [a' evs'] (H & E). cbn [fst snd] in *. unfold pcopy. cbn [fst snd]. destruct (proj2 HF a a' p out size H) as (X & Y).
  destruct (copy_in fs1 p a 0 out size) as [d r], (copy_in fs2 p a' 0 out size) as [d' r']. cbn [fst snd] in *. subst. split; [split; auto|reflexivity].
Qed.
Lemma pu_tree fuel : forall dirs out, pair_up (dir_tree_loop fuel fs1 dirs out) (dir_tree_loop fuel fs2 dirs out).
Proof.
  induction fuel as [|fuel IH]; intros [|p dirs] out; cbn [dir_tree_loop]; try apply pu_ret; try apply pu_lift.
  rewrite (proj1 HF). apply pu_bind; [apply pu_lift|]. intros l. apply pu_bind; [apply pu_report|]. intros _. apply IH.
Qed.
Lemma pu_listing p l : forall secs, pair_up (add_listing fs1 p l secs) (add_listing fs2 p l secs).
Proof.
  induction l as [|e l IH]; intros secs; cbn [add_listing]; [apply pu_ret|]. cbv zeta. apply pu_bind; [apply pu_report|]. intros _. destruct (l_is_dir e); [apply IH|].
  apply pu_bind; [apply pu_copy|]. intros _. apply IH.
Qed.
Lemma pu_tables m ts : forall nf secs, pair_up (add_tables m W1 fs1 ts nf secs) (add_tables m W2 fs2 ts nf secs).
Proof.
  induction ts as [|[p w] ts IH]; intros nf secs; cbn [add_tables]; [apply pu_ret|]. apply pu_bind; [apply pu_lift|]. intros sec. apply pu_bind; [apply pu_lift|]. intros [t nf2].
  apply pu_bind; [apply pu_report|]. intros _. apply pu_bind; [apply pu_write|]. intros _. apply pu_bind; [apply pu_listing|]. intros. apply IH.
Qed.
Lemma pu_create fuel m : pair_up (create_xdvdfs_image fuel m W1 fs1) (create_xdvdfs_image fuel m W2 fs2).
Proof.
  unfold create_xdvdfs_image, dir_tree, create_dirent_tables, pad_image. apply pu_bind; [apply pu_tree|]. intros tree.
  apply pu_bind.
  { apply pu_bind; [apply pu_lift|]. intros [ts c]. apply pu_bind; [apply pu_report|]. intros _. apply pu_bind; [apply pu_report|]. intros _. apply pu_ret. }
  intros ts. apply pu_bind; [apply pu_lift|]. intros [rp rd]. apply pu_bind; [apply pu_lift|]. intros rs. apply pu_bind; [apply pu_lift|]. intros [nf sec].
  apply pu_bind; [apply pu_tables|]. intros _. apply pu_bind; [apply pu_write|]. intros _. apply pu_bind; [|intros _; apply pu_report].
  apply pu_bind; [apply pu_len|]. intros l. destruct (_ <? _); [apply pu_write|apply pu_ret].
Qed.
End Two.

Lemma c170_lemma D1 D2 (R : D1 -> D2 -> Prop) W1 W2 fs1 fs2 fuel m a b evs a' evs1 r b' evs2 r' :
  like_devices R W1 W2 -> like_sources R fs1 fs2 -> R a b ->
  create_xdvdfs_image fuel m W1 fs1 (a, evs) = ((a', evs1), r) -> create_xdvdfs_image fuel m W2 fs2 (b, evs) = ((b', evs2), r') ->
  R a' b' /\ evs1 = evs2 /\ r = r'.
Proof.
  intros HW HF H E1 E2. destruct (pu_create R W1 W2 HW fs1 fs2 HF fuel m (a, evs) (b, evs)) as ((X & Y) & Z); [split; [exact H|reflexivity]|].
  rewrite E1, E2 in *. auto.
Qed.
Lemma c170_file_lemma D (bytes : D -> list byte) W fs t fuel m s evs s' evs1 r : file_like bytes W fs t ->
  create_xdvdfs_image fuel m W fs (s, evs) = ((s', evs1), r) ->
  create_xdvdfs_image fuel m file_wdev (std_fs t) (bytes s, evs) = ((bytes s', evs1), r).
Proof.
  intros (H1 & H2 & H3 & H4) E. destruct (create_xdvdfs_image fuel m file_wdev (std_fs t) (bytes s, evs)) as [[b evs2] r2] eqn:E2.
  destruct (c170_lemma D (list byte) (fun x y => bytes x = y) W file_wdev fs (std_fs t) fuel m s (bytes s) evs s' evs1 r b evs2 r2) as (<- & <- & <-); auto.
  - intros x y <-. split.
    + intros off l. destruct (H1 x off l) as (X & Y). split; [exact X|exact Y].
    + destruct (H2 x) as (X & Y). split; [exact X|exact Y].
  - split; [exact H3|]. intros x y p out size <-. destruct (H4 x p out size) as (X & Y). split; [exact X|exact Y].
Qed.

(** ** The browser *)
Lemma all_listed F t : (forall p, f_lists F p = true) -> forall p, br_lists F p t = true.
Proof.
  intros H. induction t as [b|cs IH] using ftree_rect'; intros p; cbn [br_lists]; [reflexivity|]. rewrite H. cbn [andb].
  apply forallb_forall. intros c Hc. rewrite Forall_forall in IH. apply IH. exact Hc.
Qed.
Lemma c170_browser_lemma say F m t old fuel new evs r : source t -> untroubled F t -> web_pack fuel m None t old = (new, evs, r) ->
  br_pack say fuel m F t old = (new, web_pack_job (Ok tt) evs (map_err say r), map_err say r).
Proof.
  intros HS (U1 & U2 & U3 & U4 & U5 & U6). unfold br_pack, web_pack. rewrite (all_listed F t U1), U3. cbn [negb].
  destruct (create_xdvdfs_image fuel m (web_wdev None) (web_fs None t) (web_new, [])) as [[w2 evs2] r2] eqn:E2.
  destruct (create_xdvdfs_image fuel m (br_wdev F) (br_fs F (populate t)) ((web_new, O), [])) as [[w1 evs1] r1] eqn:E1.
  destruct (c170_lemma clocked web (fun s w => fst s = w) (br_wdev F) (web_wdev None) (br_fs F (populate t)) (web_fs None t) fuel m (web_new, O) web_new [] w1 evs1 r1 w2 evs2 r2) as (X & <- & <-); auto.
  - intros [w n] w' H. cbn [fst] in H. subst w'. split.
    + intros off b. cbn [br_wdev web_wdev dev_write br_write]. rewrite U5. cbn [web_write over]. split; reflexivity.
    + split; reflexivity.
  - split.
    + intros p. cbn [br_fs web_fs read_dir]. unfold br_read_dir. destruct (web_read_dir _ p) as [es|e|q|]; cbn [bind]; try reflexivity.
      replace (forallb _ es) with true; [reflexivity|]. symmetry. apply forallb_forall. intros e _. destruct (f_type e); auto.
    + intros [w n] w' p out size H. cbn [fst] in H. subst w'. cbn [br_fs web_fs copy_in]. unfold br_copy, web_copy. unfold web_walk.
      destruct (lookup_tree p (populate t)) as [[b|cs]|] eqn:El; try (split; reflexivity). rewrite U5.
      pose proof (populate_same t (proj1 (proj2 HS))) as Hs. assert (HP' : proper (populate t)) by (apply (same_source _ _ Hs HS)).
      apply (lookup_at _ _ _ HP') in El. destruct (P_Repack.same_at_back _ _ _ El _ Hs) as (s & A & S). apply same_file_r in S as ->. rewrite (U6 _ _ A).
      destruct (_ =? _); [|split; reflexivity]. cbn [br_write]. rewrite U5. cbn [web_write over]. split; reflexivity.
  - unfold web_close. cbn [fst snd]. rewrite U4. subst w2. destruct r1 as [[]|e|p|]; intros [= <- <- <-]; reflexivity.
Qed.
