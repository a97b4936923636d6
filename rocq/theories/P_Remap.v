(** The remapping overlay (C43, C44, C62-C64). *)
From Verif Require Import M_Base M_Util M_Layout M_Read M_Img M_Trie M_Remap S_Img S_Trie S_Remap.
From Verif Require Import P_Base P_Tree P_Trie P_Pack P_Xfs.
From Coq Require Import Init.Byte.
Local Open Scope N_scope.

(** ** Rules *)
Lemma app_cases {A} (x : list A) k y u v : x ++ k :: y = u ++ v ->
  (exists z, u = x ++ k :: z /\ y = z ++ v) \/ (exists z, x = u ++ z /\ v = z ++ k :: y).
Proof.
  revert u. induction x as [|a x IH]; intros [|b u] E; cbn in E.
  - right. exists []. auto.
  - injection E as <- ->. left. exists u. auto.
  - subst v. right. exists (a :: x). auto.
  - injection E as <- E. destruct (IH u E) as [(z & -> & ->)|(z & -> & ->)]; [left|right]; exists z; auto.
Qed.

Section Rules.
Context (m : build) (keys : list ((str * str) * glob)).

Lemma neg_spec (k : (str * str) * glob) : starts_with [BANG] (fst (fst k)) = true <-> negated k.
Proof.
  unfold negated. destruct (fst (fst k)) as [|c rest]; cbn; [split; [discriminate|intros (r & H); discriminate]|].
  rewrite andb_true_r. unfold BANG. destruct (N.eqb_spec 33 c) as [<-|Hn]; [split; eauto|].
  split; [discriminate|]. intros (r & [= E _]). congruence.
Qed.

Lemma rule_split (s : str) (l : list ((str * str) * glob)) : exists l1 l2, l = l1 ++ l2
  /\ (l1 = [] \/ exists a n, l1 = a ++ [n] /\ matches_rule n s /\ negated n)
  /\ forall k, In k l2 -> matches_rule k s -> ~ negated k.
Proof.
  induction l as [|x l IH] using rev_ind.
  - exists [], []. split; [reflexivity|]. split; [left; reflexivity|]. intros k [].
  - destruct IH as (l1 & l2 & -> & H1 & H2).
    destruct (snd x s) as [caps|] eqn:Em.
    + destruct (starts_with [BANG] (fst (fst x))) eqn:En.
      * exists ((l1 ++ l2) ++ [x]), []. ssplit.
        -- rewrite app_nil_r. reflexivity.
        -- right. exists (l1 ++ l2), x. ssplit; auto; [unfold matches_rule; congruence|apply neg_spec; exact En].
        -- intros k [].
      * exists l1, (l2 ++ [x]). ssplit; [rewrite app_assoc; reflexivity|exact H1|].
        intros k Hk. apply in_app_iff in Hk. destruct Hk as [Hk|[<-|[]]]; [apply H2; exact Hk|].
        intros _ Hn. apply neg_spec in Hn. congruence.
    + exists l1, (l2 ++ [x]). ssplit; [rewrite app_assoc; reflexivity|exact H1|].
      intros k Hk. apply in_app_iff in Hk. destruct Hk as [Hk|[<-|[]]]; [apply H2; exact Hk|].
      intros Hm. unfold matches_rule in Hm. congruence.
Qed.

Lemma foldM_app {E A S} (f : S -> A -> res E S) s a b : foldM f s (a ++ b) = (let* s' := foldM f s a in foldM f s' b).
Proof. revert s. induction a as [|x a IH]; intros s; [reflexivity|]. cbn [app foldM]. destruct (f s x); cbn [bind]; auto. Qed.

Lemma first_of prefix suffix l2 o : (forall k, In k l2 -> matches_rule k (candidate prefix) -> ~ negated k) ->
  foldM (apply_rule m prefix suffix) None l2 = Ok o ->
  (o = None /\ forall k, In k l2 -> ~ matches_rule k (candidate prefix))
  \/ exists a k b caps p, l2 = a ++ k :: b /\ (forall x, In x a -> ~ matches_rule x (candidate prefix))
     /\ snd k (candidate prefix) = Some caps /\ rewrite_path m caps (snd (fst k)) suffix = Ok p /\ o = Some p.
Proof.
  induction l2 as [|k l IH]; intros HN H.
  - injection H as <-. left. split; [reflexivity|intros k []].
  - cbn [foldM] in H. unfold apply_rule at 1 in H. destruct (snd k (candidate prefix)) as [caps|] eqn:Em.
    + destruct (starts_with [BANG] (fst (fst k))) eqn:En.
      { exfalso. apply neg_spec in En. apply (HN k (or_introl eq_refl)); auto. unfold matches_rule. congruence. }
      destruct (rewrite_path m caps (snd (fst k)) suffix) as [p| | |] eqn:Er; cbn [bind] in H; try discriminate.
      right. exists [], k, l, caps, p. ssplit; try reflexivity; try assumption; [intros x []|].
      assert (Hk : forall l', (forall x, In x l' -> matches_rule x (candidate prefix) -> ~ negated x) ->
                     foldM (apply_rule m prefix suffix) (Some p) l' = Ok (Some p)).
      { clear. induction l' as [|x l' IH]; intros Hx; [reflexivity|]. cbn [foldM]. unfold apply_rule at 1.
        destruct (snd x (candidate prefix)) eqn:E.
        - destruct (starts_with [BANG] (fst (fst x))) eqn:En.
          + exfalso. apply neg_spec in En. apply (Hx x (or_introl eq_refl)); auto. unfold matches_rule. congruence.
          + cbn [bind]. apply IH. intros y Hy. apply Hx. right; exact Hy.
        - cbn [bind]. apply IH. intros y Hy. apply Hx. right; exact Hy. }
      rewrite Hk in H by (intros x Hx; apply HN; right; exact Hx). congruence.
    + cbn [bind] in H. destruct (IH (fun x Hx => HN x (or_intror Hx)) H) as [(-> & Hno)|(a & k' & b & caps & p & -> & Ha & Hk)].
      * left. split; [reflexivity|]. intros x [<-|Hx]; [unfold matches_rule; congruence|apply Hno; exact Hx].
      * right. exists (k :: a), k', b, caps, p. split; [reflexivity|]. split; [|exact Hk].
        intros x [<-|Hx]; [unfold matches_rule; congruence|apply Ha; exact Hx].
Qed.

Lemma neg_resets prefix suffix a n acc o : matches_rule n (candidate prefix) -> negated n ->
  foldM (apply_rule m prefix suffix) acc (a ++ [n]) = Ok o -> o = None.
Proof.
  intros Hm Hn. rewrite foldM_app. destruct (foldM (apply_rule m prefix suffix) acc a) as [o'| | |]; cbn [bind]; try discriminate.
  cbn [foldM]. unfold apply_rule. unfold matches_rule in Hm. destruct (snd n (candidate prefix)); [|congruence].
  apply neg_spec in Hn. rewrite Hn. cbn. congruence.
Qed.

Lemma rewritten_spec prefix suffix o : rewritten m keys prefix suffix = Ok o ->
  match o with
  | Some p => exists to caps, selects keys (candidate prefix) to caps /\ rewrite_path m caps to suffix = Ok p
  | None => forall to caps, ~ selects keys (candidate prefix) to caps
  end.
Proof.
  unfold rewritten. destruct (rule_split (candidate prefix) keys) as (l1 & l2 & Ek & H1 & H2). rewrite Ek at 1. rewrite foldM_app.
  assert (HN : forall o', foldM (apply_rule m prefix suffix) None l1 = Ok o' -> o' = None).
  { intros o'. destruct H1 as [->|(a & n & -> & Hm & Hn)]; [cbn; congruence|]. apply neg_resets; auto. }
  destruct (foldM (apply_rule m prefix suffix) None l1) as [o'| | |]; cbn [bind]; try discriminate. rewrite (HN o' eq_refl).
  intros H. destruct (first_of prefix suffix l2 o H2 H) as [(-> & Hno)|(a & k & b & caps & p & -> & Ha & Hk & Er & ->)].
  - intros to caps (L1 & L2 & from & g & E & Hg & Hnn & HL2 & HL1). rewrite Ek in E. symmetry in E. apply app_cases in E.
    destruct E as [(z & -> & ->)|(z & -> & ->)].
    + destruct H1 as [H1|(a & n & E & Hm & Hn)]; [destruct L1; discriminate|]. apply app_cases in E.
      destruct E as [(w & -> & E)|(w & -> & E)].
      * apply (HL2 n); auto. apply in_app_iff. left. rewrite E. apply in_app_iff. right. left. reflexivity.
      * destruct w as [|? w]; [injection E as E Ez; subst n; contradiction|destruct w; discriminate].
    + apply (Hno (from, to, g)); [apply in_app_iff; right; left; reflexivity|]. unfold matches_rule. cbn [snd]. congruence.
  - destruct k as [[from to] g]. cbn [fst snd] in *. exists to, caps. split; [|exact Er].
    exists (l1 ++ a), b, from, g. ssplit.
    + rewrite Ek, <- app_assoc. reflexivity.
    + exact Hk.
    + apply H2; [apply in_app_iff; right; left; reflexivity|]. unfold matches_rule. cbn [snd]. congruence.
    + intros k Hin. apply H2. apply in_app_iff. right. right. exact Hin.
    + intros x k y E Hm Hn. symmetry in E. apply app_cases in E. destruct E as [(z & -> & ->)|(z & -> & ->)].
      * destruct H1 as [H1|(a' & n & E & Hm' & Hn')]; [destruct x; discriminate|]. apply app_cases in E.
        destruct E as [(w & -> & E)|(w & -> & E)].
        -- exists n. ssplit; auto. rewrite E. apply in_app_iff. left. apply in_app_iff. right. left. reflexivity.
        -- destruct w as [|? w]; [injection E as E Ez; subst n; contradiction|destruct w; discriminate].
      * exfalso. apply (Ha k); [|exact Hm]. apply in_app_iff. right. left. reflexivity.
Qed.

(** ** Longest matched prefix *)
Definition lm (p : path) : option path :=
  snd (fold_left (fun st c => let q := fst st ++ [c] in (q, if any_match keys q then Some q else snd st)) p ([], None)).
Lemma lm_snoc p c : lm (p ++ [c]) = if any_match keys (p ++ [c]) then Some (p ++ [c]) else lm p.
Proof.
  unfold lm. rewrite fold_left_app. cbn [fold_left fst snd].
  assert (H : forall q st, fst (fold_left (fun st c => let q := fst st ++ [c] in (q, if any_match keys q then Some q else snd st)) q st) = fst st ++ q).
  { clear. induction q as [|c q IH]; intros st; cbn [fold_left]; [rewrite app_nil_r; reflexivity|]. rewrite IH. cbn [fst]. rewrite <- app_assoc. reflexivity. }
  rewrite H. reflexivity.
Qed.
Lemma any_spec p : any_match keys p = true <-> exists k, In k keys /\ matches_rule k (candidate p).
Proof.
  unfold any_match. rewrite existsb_exists. unfold matches_rule. split; intros (k & Hk & H); exists k; (split; [exact Hk|]); destruct k as [r g]; cbn [snd] in *; destruct (g (candidate p)).
  - discriminate.
  - discriminate.
  - reflexivity.
  - destruct H. reflexivity.
Qed.
Lemma lm_best p : match lm p with Some pr => exists suf, best keys p pr suf | None => forall pr suf, ~ best keys p pr suf end.
Proof.
  induction p as [|c p IH] using rev_ind.
  - cbn. intros pr suf (E & Hn & _). symmetry in E. apply app_eq_nil in E. tauto.
  - rewrite lm_snoc. destruct (any_match keys (p ++ [c])) eqn:Ea.
    + exists []. unfold best. ssplit; [rewrite app_nil_r; reflexivity|destruct p; discriminate|apply any_spec; exact Ea|].
      intros a b k E Ha. symmetry in E. apply app_eq_nil in E. tauto.
    + assert (Hno : forall k, In k keys -> ~ matches_rule k (candidate (p ++ [c]))).
      { intros k Hk Hm. assert (any_match keys (p ++ [c]) = true) by (apply any_spec; eauto). congruence. }
      destruct (lm p) as [pr|].
      * destruct IH as (suf & -> & Hn & Hm & Hl). exists (suf ++ [c]). unfold best. ssplit; [rewrite app_assoc; reflexivity|exact Hn|exact Hm|].
        intros a b k E Ha Hk. destruct b as [|x b _] using rev_ind.
        -- rewrite app_nil_r in E. subst a. rewrite app_assoc. apply Hno. exact Hk.
        -- rewrite app_assoc in E. apply app_inj_tail in E. destruct E as (E & _). eapply Hl; eauto.
      * intros pr suf (E & Hn & (k & Hk & Hm) & Hl). destruct suf as [|x suf _] using rev_ind.
        -- rewrite app_nil_r in E. subst pr. exact (Hno k Hk Hm).
        -- rewrite app_assoc in E. apply app_inj_tail in E. destruct E as (-> & <-). apply (IH pr suf). unfold best. ssplit; [reflexivity|exact Hn|exists k; auto|].
           intros a b k' -> Ha. apply (Hl a (b ++ [c])); [rewrite app_assoc; reflexivity|exact Ha].
Qed.
Lemma best_fun p pr suf pr' suf' : best keys p pr suf -> best keys p pr' suf' -> pr = pr' /\ suf = suf'.
Proof.
  intros (E & Hn & (k & Hk & Hm) & Hl) (E' & Hn' & (k' & Hk' & Hm') & Hl'). subst p.
  assert (H : forall (a b c d : path), a ++ b = c ++ d -> (exists z, a = c ++ z /\ d = z ++ b) \/ (exists z, c = a ++ z /\ b = z ++ d)).
  { clear. induction a as [|x a IH]; intros b [|y c] d E; cbn in E.
    - left. exists []. auto.
    - subst b. right. exists (y :: c). auto.
    - subst d. left. exists (x :: a). auto.
    - injection E as <- E. destruct (IH _ _ _ E) as [(z & -> & ->)|(z & -> & ->)]; [left|right]; exists z; auto. }
  destruct (H _ _ _ _ E') as [(z & -> & ->)|(z & -> & ->)].
  - destruct z as [|x z]; [rewrite app_nil_r; auto|]. exfalso. apply (Hl' (x :: z) suf k); auto. discriminate.
  - destruct z as [|x z]; [rewrite app_nil_r; auto|]. exfalso. apply (Hl (x :: z) suf' k'); auto. discriminate.
Qed.

(** ** The walk *)
Definition kind_as (e : fentry) (s : ftree) : Prop :=
  match s with FFile b => f_type e = TFile /\ f_len e = len b | FDir _ => f_type e = TDirectory end.

Inductive walked : list (path * ftree) -> list (path * fentry * path) -> Prop :=
| wk_nil : walked [] []
| wk_skip p s l ms : lm p = None -> walked l ms -> walked ((p, s) :: l) ms
| wk_take p s l e pr ms : lm p = Some pr -> kind_as e s -> walked l ms -> walked ((p, s) :: l) ((p, e, pr) :: ms).
Lemma walked_app a b ms ms' : walked a ms -> walked b ms' -> walked (a ++ b) (ms ++ ms').
Proof. induction 1; cbn [app]; intros H'; [exact H'|apply wk_skip; auto|apply wk_take; auto]. Qed.

Definition subdirs (p : path) (cs : list (str * ftree)) : list (path * list (str * ftree)) :=
  flat_map (fun c => match snd c with FDir ds => [(p ++ [fst c], ds)] | FFile _ => [] end) cs.
Definition orders (l : list (path * list (str * ftree))) : list (path * ftree) := concat (map (fun y => host_order (fst y) (FDir (snd y))) l).

Lemma orders_app a b : orders (a ++ b) = orders a ++ orders b.
Proof. unfold orders. rewrite map_app, concat_app. reflexivity. Qed.
Lemma order_dir p cs : host_order p (FDir cs) = map (fun c => (p ++ [fst c], snd c)) cs ++ orders (rev (subdirs p cs)).
Proof.
  cbn [host_order]. f_equal. induction cs as [|[n s] cs IH]; [reflexivity|]. cbn [map rev subdirs flat_map fst snd]. fold (subdirs p cs).
  rewrite concat_app, IH, rev_app_distr, orders_app. f_equal. cbn [concat]. rewrite app_nil_r. destruct s as [b|ds]; [reflexivity|].
  unfold orders. cbn [rev app map concat fst snd]. rewrite app_nil_r. reflexivity.
Qed.

Definition stacked (l : list (path * list (str * ftree))) : list (path * option path) := map (fun y => (fst y, lm (fst y))) l.

Lemma visit_all p : forall es cs dirs ms, Forall2 lists_as es cs ->
  exists new, fold_left (visit keys p (lm p)) es (dirs, ms) = (stacked (rev (subdirs p cs)) ++ dirs, ms ++ new)
    /\ walked (map (fun c => (p ++ [fst c], snd c)) cs) new.
Proof.
  intros es cs dirs ms H. revert dirs ms. induction H as [|e [n s] es cs He H IH]; intros dirs ms.
  - exists []. cbn. rewrite app_nil_r. split; [reflexivity|constructor].
  - cbn [fold_left map fst snd]. destruct He as (En & Ek). cbn [fst snd] in *.
    assert (Ev : visit keys p (lm p) (dirs, ms) e =
      (match f_type e with TDirectory => (p ++ [n], lm (p ++ [n])) :: dirs | TFile => dirs end,
       match lm (p ++ [n]) with Some pr => ms ++ [(p ++ [n], e, pr)] | None => ms end)).
    { unfold visit, from_base. rewrite En. cbv zeta. rewrite lm_snoc. reflexivity. }
    rewrite Ev. clear Ev.
    set (dirs' := match f_type e with TDirectory => _ | TFile => _ end). set (ms' := match lm (p ++ [n]) with Some _ => _ | None => _ end).
    destruct (IH dirs' ms') as (new & E & HW). rewrite E.
    assert (Ed : stacked (rev (subdirs p cs)) ++ dirs' = stacked (rev (subdirs p ((n, s) :: cs))) ++ dirs).
    { unfold dirs'. cbn [subdirs flat_map fst snd]. fold (subdirs p cs). rewrite rev_app_distr. unfold stacked. rewrite map_app, <- app_assoc. f_equal.
      destruct s as [b|ds]; [destruct Ek as (-> & _)|rewrite Ek]; reflexivity. }
    rewrite Ed. unfold ms'. destruct (lm (p ++ [n])) as [pr|] eqn:El.
    + exists ((p ++ [n], e, pr) :: new). split; [rewrite <- app_assoc; reflexivity|]. apply wk_take; auto.
    + exists new. split; [reflexivity|]. apply wk_skip; auto.
Qed.

Fixpoint ndirs (t : ftree) : nat :=
  match t with FFile _ => 0 | FDir cs => S (fold_right (fun c n => (ndirs (snd c) + n)%nat) 0%nat cs) end.
Definition ndirs_of (l : list (path * list (str * ftree))) : nat := fold_right (fun y n => (ndirs (FDir (snd y)) + n)%nat) 0%nat l.
Lemma ndirs_app a b : ndirs_of (a ++ b) = (ndirs_of a + ndirs_of b)%nat.
Proof. induction a as [|x a IH]; [reflexivity|]. cbn [app ndirs_of fold_right]. fold (ndirs_of (a ++ b)) (ndirs_of a). rewrite IH. lia. Qed.
Lemma ndirs_rev a : ndirs_of (rev a) = ndirs_of a.
Proof. induction a as [|x a IH]; [reflexivity|]. cbn [rev]. rewrite ndirs_app, IH. cbn [ndirs_of fold_right]. fold (ndirs_of a). lia. Qed.
Lemma ndirs_sub p cs : ndirs (FDir cs) = S (ndirs_of (subdirs p cs)).
Proof.
  cbn [ndirs]. f_equal. induction cs as [|[n s] cs IH]; [reflexivity|]. cbn [fold_right subdirs flat_map fst snd]. fold (subdirs p cs).
  rewrite ndirs_app, <- IH. f_equal. destruct s as [b|ds]; [reflexivity|]. cbn [ndirs_of fold_right snd]. lia.
Qed.

Lemma subdirs_at t p cs : at_path t p (FDir cs) -> Forall (fun y => at_path t (fst y) (FDir (snd y))) (subdirs p cs).
Proof.
  intros H. apply Forall_forall. intros y Hy. unfold subdirs in Hy. apply in_flat_map in Hy. destruct Hy as ([n s] & Hin & Hy). cbn [fst snd] in Hy.
  destruct s as [b|ds]; [destruct Hy|]. destruct Hy as [<-|[]]. cbn [fst snd]. apply (at_path_snoc _ _ _ _ _ H Hin).
Qed.

Lemma walk_spec {D} (fs : fsys D) t : presents fs t -> forall fuel ys ms, Forall (fun y => at_path t (fst y) (FDir (snd y))) ys ->
  (ndirs_of ys <= fuel)%nat -> exists new, walk_host keys fuel fs (stacked ys) ms = Ok (ms ++ new) /\ walked (orders ys) new.
Proof.
  intros HP. induction fuel as [|fuel IH]; intros ys ms HA Hf.
  - destruct ys as [|[p cs] ys]; [|cbn [ndirs_of fold_right snd ndirs] in Hf; lia]. exists []. cbn. rewrite app_nil_r. split; [reflexivity|constructor].
  - destruct ys as [|[p cs] ys]; [exists []; cbn; rewrite app_nil_r; split; [reflexivity|constructor]|].
    inversion HA as [|? ? Hp HA']; subst. cbn [fst snd] in Hp. cbn [stacked map fst snd walk_host].
    destruct (HP p cs Hp) as (es & -> & HL). cbn [map_err bind].
    fold (stacked ys). destruct (visit_all p es cs (stacked ys) ms HL) as (new & Ev & HW). rewrite Ev.
    assert (Es : stacked (rev (subdirs p cs)) ++ stacked ys = stacked (rev (subdirs p cs) ++ ys)) by (unfold stacked; rewrite map_app; reflexivity).
    rewrite Es. destruct (IH (rev (subdirs p cs) ++ ys) (ms ++ new)) as (new' & E & HW').
    + apply Forall_app. split; [apply Forall_rev, subdirs_at; exact Hp|exact HA'].
    + cbn [ndirs_of fold_right snd] in Hf. fold (ndirs_of ys) in Hf. rewrite (ndirs_sub p) in Hf. rewrite ndirs_app, ndirs_rev. lia.
    + exists (new ++ new'). rewrite E, app_assoc. split; [reflexivity|]. rewrite orders_app in HW'.
      change (orders ((p, cs) :: ys)) with (host_order p (FDir cs) ++ orders ys). rewrite order_dir, <- app_assoc. apply walked_app; auto.
Qed.

Lemma walk_more {D} (fs : fsys D) fuel : forall k dirs ms r, walk_host keys fuel fs dirs ms = Ok r -> walk_host keys (fuel + k) fs dirs ms = Ok r.
Proof.
  induction fuel as [|fuel IH]; intros k [|[dir parent] dirs] ms r H; cbn [walk_host Nat.add] in *; try discriminate.
  - destruct k; exact H.
  - exact H.
  - destruct (map_err FilesystemError (read_dir fs dir)) as [listing| | |]; cbn [bind] in *; try discriminate.
    destruct (fold_left _ _ _) as [dirs' ms']. apply IH. exact H.
Qed.
Lemma walk_root {D} (fs : fsys D) cs : presents fs (FDir cs) -> 
  exists ms, walked (host_order [] (FDir cs)) ms /\ (forall fuel, (ndirs (FDir cs) <= fuel)%nat -> walk_host keys fuel fs [([], None)] [] = Ok ms)
   /\ forall fuel r, walk_host keys fuel fs [([], None)] [] = Ok r -> r = ms.
Proof.
  intros HP. 
  destruct (walk_spec fs _ HP (ndirs (FDir cs)) [([], cs)] []) as (ms & E & HW).
  { constructor; [constructor|constructor]. }
  { cbn [ndirs_of fold_right snd]. lia. }
  cbn [stacked map fst app] in E. change (lm []) with (@None path) in E.
  exists ms. ssplit.
  - cbn [orders map concat fst snd] in HW. rewrite app_nil_r in HW. exact HW.
  - intros fuel Hf. replace fuel with (ndirs (FDir cs) + (fuel - ndirs (FDir cs)))%nat by lia. apply walk_more. exact E.
  - intros fuel r Hr. assert (H : walk_host keys (fuel + ndirs (FDir cs)) fs [([], None)] [] = Ok r) by (apply walk_more; exact Hr).
    rewrite Nat.add_comm in H. pose proof (walk_more _ _ fuel _ _ _ E) as H'. pose proof (eq_trans (eq_sym H) H') as H2. injection H2 as ->. reflexivity.
Qed.
End Rules.
