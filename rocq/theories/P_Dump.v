(** The mapping that the overlay reports (C65). *)
From Verif Require Import M_Base M_Util M_Layout M_Read M_Img M_Trie M_Remap S_Img S_Trie S_Remap.
From Verif Require Import P_Base P_Tree P_Trie P_Pack P_Xfs P_Remap P_Overlay.
From Coq Require Import Init.Byte.
Local Open Scope N_scope.

Lemma order_in t' : forall p q x, at_path t' q x -> q <> [] -> In (p ++ q, x) (host_order p t').
Proof.
  induction t' as [b|cs IH] using ftree_rect'; intros p q x H Hq; inversion H as [|? n y q' ? Hin Hy]; subst; try congruence.
  cbn [host_order]. apply in_app_iff. destruct q' as [|c q'].
  - left. inversion Hy; subst. apply in_map_iff. exists (n, x). auto.
  - right. apply in_concat. exists (host_order (p ++ [n]) y). split.
    + apply -> in_rev. apply in_map_iff. exists (n, y). auto.
    + rewrite Forall_forall in IH. specialize (IH (n, y) Hin (p ++ [n]) (c :: q') x Hy ltac:(discriminate)). rewrite <- app_assoc in IH. exact IH.
Qed.

Section Dump.
Context (bytes : path -> list byte) (tr : trie mapent) (n : nat).
Hypotheses (HD : deep n tr) (HL : all_latin tr).
Notation t' := (otree bytes n tr).

Definition reported (q h : path) : Prop := exists me, val tr q = Some me /\ m_is_prefix me = false /\ m_host_path me = h.

Definition dump_step (p : path) (st : list path * list (path * path)) (x : str * mapent) : list path * list (path * path) :=
  let '(queue, out) := st in
  let q := from_base p (fst x) in
  (match f_type (m_host_entry (snd x)) with TDirectory => q :: queue | TFile => queue end,
   if m_is_prefix (snd x) then out else out ++ [(m_host_path (snd x), q)]).

Lemma dump_list p sub cs k : at_trie tr p = Some sub -> otree bytes k sub = FDir cs -> deep k sub -> all_latin sub -> forall queue out,
  exists new, fold_left (dump_step p) (trie_iter sub) (queue, out) = (map fst (rev (subdirs p cs)) ++ queue, out ++ new)
   /\ forall h q, In (h, q) new <-> (exists x, In (q, x) (map (fun c => (p ++ [fst c], snd c)) cs)) /\ reported q h.
Proof.
  intros Ea E HDk HLk. assert (HV : forall s me, In (s, me) (trie_iter sub) -> val tr (p ++ [s]) = Some me).
  { intros s me Hin. rewrite val_app, Ea. apply iter_recd in Hin; auto. destruct Hin as (sub' & ->). reflexivity. }
  destruct k as [|k]; cbn [otree] in E; injection E as <-.
  { assert (Hi : trie_iter sub = []).
    { destruct (trie_iter sub) as [|[s me] l] eqn:El; [reflexivity|]. assert (Hin : In (s, me) (trie_iter sub)) by (rewrite El; left; reflexivity).
      apply iter_recd in Hin; auto. destruct Hin as (sub' & Er). assert (val sub [s] = None) by (apply HDk; cbn; lia). cbn [val] in *. rewrite Er in *. discriminate. }
    rewrite Hi. intros queue out. exists []. cbn. rewrite app_nil_r. split; [reflexivity|]. intros h q. split; [intros []|]. intros ((x & []) & _). }
  revert HV. induction (trie_iter sub) as [|[s me] l IH]; intros HV queue out.
  - exists []. cbn. rewrite app_nil_r. split; [reflexivity|]. intros h q. split; [intros []|]. intros ((x & []) & _).
  - cbn [fold_left]. unfold dump_step at 2. cbn [fst snd]. unfold from_base.
    destruct (IH (fun s' me' Hin => HV s' me' (or_intror Hin)) (match f_type (m_host_entry me) with TDirectory => (p ++ [s]) :: queue | TFile => queue end)
               (if m_is_prefix me then out else out ++ [(m_host_path me, p ++ [s])])) as (new & Ef & Hnew).
    exists ((if m_is_prefix me then [] else [(m_host_path me, p ++ [s])]) ++ new). split.
    + etransitivity; [exact Ef|]. cbn [map fst subdirs flat_map snd]. fold (subdirs p). f_equal.
      * rewrite rev_app_distr, map_app, <- app_assoc. f_equal. destruct (f_type (m_host_entry me)); [reflexivity|].
        destruct (otree_dir bytes k (match recd sub s with Some (_, s0) => s0 | None => trie_default end)) as (ds & ->). reflexivity.
      * destruct (m_is_prefix me); [reflexivity|]. rewrite <- app_assoc. reflexivity.
    + intros h q. rewrite in_app_iff, Hnew. cbn [map]. pose proof (HV s me (or_introl eq_refl)) as Hv. split.
      * intros [Hin|((x & Hx) & HR)]; [|split; [exists x; right; exact Hx|exact HR]].
        destruct (m_is_prefix me) eqn:Ep; [destruct Hin|]. destruct Hin as [[= <- <-]|[]]. split; [eexists; left; reflexivity|]. exists me. auto.
      * intros ((x & [Hx|Hx]) & HR); [|right; split; [exists x; exact Hx|exact HR]]. cbn [fst] in Hx. injection Hx as <- _.
        destruct HR as (me' & Ev & Ep & Eh). left. pose proof (eq_trans (eq_sym Ev) Hv) as Hm. injection Hm as ->. rewrite Ep. left. rewrite Eh. reflexivity.
Qed.

Lemma dump_queue : forall fuel ys out, Forall (fun y => at_path t' (fst y) (FDir (snd y))) ys -> (ndirs_of ys <= fuel)%nat ->
  exists new, dump_loop fuel tr (map fst ys) out = Ok (out ++ new)
   /\ forall h q, In (h, q) new <-> (exists x, In (q, x) (orders ys)) /\ reported q h.
Proof.
  induction fuel as [|fuel IH]; intros ys out HA Hf.
  - destruct ys as [|[p cs] ys]; [|cbn [ndirs_of fold_right snd ndirs] in Hf; lia]. exists []. cbn. rewrite app_nil_r. split; [reflexivity|]. intros h q. split; [intros []|intros ((x & []) & _)].
  - destruct ys as [|[p cs] ys]; [exists []; cbn; rewrite app_nil_r; split; [reflexivity|]; intros h q; split; [intros []|intros ((x & []) & _)]|].
    inversion HA as [|? ? Hp HA']; subst. cbn [fst snd] in Hp. cbn [map fst dump_loop].
    destruct (otree_at_dir bytes n tr p cs HD HL Hp) as (sub & k & Ea & E & Hlp & HDk & HLk).
    rewrite subdir_at by auto. rewrite Ea. cbn [bind unwrap].
    destruct (dump_list p sub cs k Ea E HDk HLk (map fst ys) out) as (new & Ef & Hnew). unfold dump_step in Ef. rewrite Ef.
    rewrite <- map_app. destruct (IH (rev (subdirs p cs) ++ ys) (out ++ new)) as (new' & E' & Hnew').
    + apply Forall_app. split; [apply Forall_rev, subdirs_at; exact Hp|exact HA'].
    + cbn [ndirs_of fold_right snd] in Hf. fold (ndirs_of ys) in Hf. rewrite (ndirs_sub p) in Hf. rewrite ndirs_app, ndirs_rev. lia.
    + exists (new ++ new'). rewrite app_assoc. split; [exact E'|]. intros h q. rewrite in_app_iff, Hnew, Hnew'.
      change (orders ((p, cs) :: ys)) with (host_order p (FDir cs) ++ orders ys). rewrite order_dir, <- app_assoc, orders_app.
      split.
      * intros [((x & Hx) & HR)|((x & Hx) & HR)]; (split; [exists x; apply in_app_iff; auto|exact HR]).
      * intros ((x & Hx) & HR). apply in_app_iff in Hx. destruct Hx as [Hx|Hx]; [left|right]; (split; [exists x; exact Hx|exact HR]).
Qed.

Lemma dump_all : exists k, forall fuel, (k <= fuel)%nat -> exists out, dump fuel tr = Ok out
  /\ forall h q, In (h, q) out <-> (exists x, at_path t' q x) /\ q <> [] /\ reported q h.
Proof.
  destruct (otree_dir bytes n tr) as (cs & Ecs). exists (ndirs (FDir cs)). intros fuel Hf.
  destruct (dump_queue fuel [([], cs)] []) as (new & E & Hnew).
  - constructor; [|constructor]. cbn [fst snd]. rewrite Ecs. constructor.
  - cbn [ndirs_of fold_right snd]. lia.
  - exists new. split; [exact E|]. intros h q. rewrite Hnew.
    unfold orders. cbn [map concat fst snd]. rewrite app_nil_r. split.
    + intros ((x & Hx) & HR). destruct (order_at (FDir cs) (FDir cs) [] q x (at_here _) Hx) as (Ha & Hq). split; [exists x; rewrite Ecs; exact Ha|auto].
    + intros ((x & Hx) & Hq & HR). split; [|exact HR]. exists x. rewrite Ecs in Hx. exact (order_in (FDir cs) [] q x Hx Hq).
Qed.
End Dump.

Lemma c65_lemma fuel m wax (fs : fsys (list byte)) cfg t tr :
  is_fdir t = true -> proper t -> presents fs t -> remap_new fuel m wax fs cfg = Ok tr ->
  exists keys cl k, rules wax cfg keys /\ claims m keys (host_order [] t) cl
   /\ forall fuel', (k <= fuel')%nat -> exists out, dump fuel' tr = Ok out
   /\ forall h q, In (h, q) out <-> q <> [] /\ open_to cl q /\ exists s, claimant q cl = Some (h, s, q).
Proof.
  intros Hd HP HPr H. unfold remap_new in H. destruct (compile wax cfg) as [keys| | |] eqn:Ek; cbn [bind] in H; try discriminate.
  destruct (walk_host keys fuel fs [([], None)] []) as [ms| | |] eqn:Ew; cbn [bind] in H; try discriminate.
  destruct t as [b|cs]; [discriminate|]. destruct (walk_root keys fs cs HPr) as (ms' & HW & _ & Hu). rewrite (Hu _ _ Ew) in H.
  destruct (add_all m keys _ _ HW _ _ H) as (cl & HC & HL & HV).
  assert (HV' : forall q, q <> [] -> vrel q (claimant q cl) (val tr q)) by (intros q Hq; specialize (HV q Hq); rewrite val_default in HV; exact HV).
  assert (HDp : deep (depth cl) tr) by (eapply ov_deep; eauto). assert (HLt : all_latin tr) by (eapply ov_latin; eauto).
  assert (HO : forall q, opened tr q <-> open_to cl q) by (intros q; eapply ov_open; eauto).
  destruct (dump_all (host_bytes (FDir cs)) tr (depth cl) HDp HLt) as (k & Hk).
  exists keys, cl, k. split; [apply compile_rules; exact Ek|]. split; [exact HC|]. intros fuel' Hf. destruct (Hk fuel' Hf) as (out & E & Hout).
  exists out. split; [exact E|]. intros h q. rewrite Hout. split.
  - intros ((x & Hx) & Hq & me & Ev & Ep & Eh). split; [exact Hq|]. apply at_otree in Hx; auto. destruct Hx as (Ho & _). split; [apply HO; exact Ho|].
    specialize (HV' q Hq). unfold vrel in HV'. destruct (claimant q cl) as [[[h' s] r]|]; [|congruence].
    destruct HV' as (me' & Ev' & E1 & _ & E3). pose proof (eq_trans (eq_sym Ev) Ev') as Hm. injection Hm as <-.
    destruct (path_eq_dec r q) as [->|Hn]; [exists s; rewrite <- E1, Eh; reflexivity|]. destruct (E3 Hn) as (_ & Hx). congruence.
  - intros (Hq & Ho & s & Ec). specialize (HV' q Hq). unfold vrel in HV'. rewrite Ec in HV'. destruct HV' as (me & Ev & E1 & E2 & _).
    split; [|split; [exact Hq|]].
    + destruct (at_trie tr q) as [sub|] eqn:Ea; [|exfalso; assert (val tr q <> None) as Hx by congruence; apply at_val in Hx; [congruence|exact Hq]].
      exists (shape (host_bytes (FDir cs)) (depth cl - length q) me sub). apply at_otree; auto. split; [apply HO; exact Ho|]. exists me, sub. auto.
    + exists me. destruct (E2 eq_refl). auto.
Qed.
