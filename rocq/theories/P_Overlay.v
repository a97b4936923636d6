(** The tree that the overlay shows (C43, C44, C63, C64). *)
From Verif Require Import M_Base M_Util M_Layout M_Read M_Img M_Trie M_Remap S_Img S_Trie S_Remap.
From Verif Require Import P_Base P_Tree P_Trie P_Pack P_Xfs P_More P_Template P_Remap.
From Coq Require Import Init.Byte.
Local Open Scope N_scope.

(** ** One insertion *)
Definition crel (host : path) (e : fentry) (p q : path) (me : mapent) : Prop :=
  m_host_path me = host /\ (q = p -> m_host_entry me = e /\ m_is_prefix me = false)
  /\ (q <> p -> f_type (m_host_entry me) = TDirectory /\ m_is_prefix me = true).

Lemma val_recd {T} (t t' : trie T) c q : recd t' c = recd t c -> val t' (c :: q) = val t (c :: q).
Proof. intros H. destruct q; cbn [val]; rewrite H; reflexivity. Qed.

Lemma chain_ok host e : forall p t, latin_path p -> exists t', insert_chain host e t p = Ok t' /\
  forall q, q <> [] -> match val t q with
                       | Some w => val t' q = Some w
                       | None => if path_eq_dec (firstn (length q) p) q then exists me, val t' q = Some me /\ crel host e p q me else val t' q = None
                       end.
Proof.
  induction p as [|c rest IH]; intros t Hp.
  - exists t. split; [reflexivity|]. intros q Hq. destruct (val t q) eqn:E; [reflexivity|].
    destruct (path_eq_dec (firstn (length q) []) q) as [Eq|]; [|reflexivity]. rewrite firstn_nil in Eq. congruence.
  - inversion Hp as [|? ? Hc Hr]; subst. cbn [insert_chain]. set (v := mkMapent _ _ _). rewrite recd_insert by auto.
    set (sub0 := match recd t c with Some (_, sub) => sub | None => trie_default end).
    destruct (IH sub0 Hr) as (sub & -> & Hsub). cbn [bind].
    destruct (insert_recd (E:=rmerr) t c v sub Hc) as (t' & -> & E1 & E2). exists t'. split; [reflexivity|].
    intros [|c' q] Hq; [congruence|]. destruct (list_eq_dec N.eq_dec c' c) as [->|Hn].
    + destruct q as [|c1 q].
      * cbn [val length firstn]. rewrite E1. destruct (recd t c) as [[w s]|]; [reflexivity|].
        destruct (path_eq_dec [c] [c]) as [_|]; [|congruence]. exists v. split; [reflexivity|]. unfold v, crel. cbn [m_host_path m_host_entry m_is_prefix].
        split; [reflexivity|]. split.
        -- intros [= <-]. split; reflexivity.
        -- intros Hne. destruct rest; [congruence|]. split; reflexivity.
      * rewrite (val_cons t' c) by discriminate. rewrite E1.
        assert (Ev : val t (c :: c1 :: q) = val sub0 (c1 :: q)).
        { rewrite val_cons by discriminate. unfold sub0. destruct (recd t c) as [[w s]|]; [reflexivity|]. symmetry. apply val_default. }
        rewrite Ev. specialize (Hsub (c1 :: q) ltac:(discriminate)). destruct (val sub0 (c1 :: q)) as [w|]; [exact Hsub|].
        destruct (path_eq_dec (firstn (length (c1 :: q)) rest) (c1 :: q)) as [Ef|Ef].
        -- destruct (path_eq_dec (firstn (length (c :: c1 :: q)) (c :: rest)) (c :: c1 :: q)) as [_|Hx].
           ++ destruct Hsub as (me & -> & H1 & H2 & H3). exists me. split; [reflexivity|]. unfold crel. split; [exact H1|]. split.
              ** intros [= <-]. apply H2. reflexivity.
              ** intros Hx. apply H3. intros <-. apply Hx. reflexivity.
           ++ exfalso. apply Hx. change (length (c :: c1 :: q)) with (S (length (c1 :: q))). cbn [firstn]. f_equal. exact Ef.
        -- destruct (path_eq_dec (firstn (length (c :: c1 :: q)) (c :: rest)) (c :: c1 :: q)) as [Hx|_]; [|exact Hsub].
           exfalso. apply Ef. change (length (c :: c1 :: q)) with (S (length (c1 :: q))) in Hx. cbn [firstn] in Hx. injection Hx as Hx. exact Hx.
    + rewrite (val_recd t t' c' q) by (apply E2; exact Hn). destruct (val t (c' :: q)); [reflexivity|].
      destruct (path_eq_dec (firstn (length (c' :: q)) (c :: rest)) (c' :: q)) as [Ef|_]; [|reflexivity]. cbn [length firstn] in Ef. congruence.
Qed.

Lemma latin_dec s : latin s \/ ~ latin s.
Proof.
  induction s as [|c s [IH|IH]]; [left; constructor| |right; inversion 1; auto].
  destruct (N.ltb_spec c 256); [left; constructor; auto|right; inversion 1; lia].
Qed.
Lemma chain_panic host e : forall p t, ~ latin_path p -> exists k, insert_chain host e t p = Panic k.
Proof.
  induction p as [|c rest IH]; intros t Hp; [destruct Hp; constructor|]. cbn [insert_chain].
  destruct (latin_dec c) as [Hc|Hc]; [|apply insert_non_latin; exact Hc].
  rewrite recd_insert by auto. destruct (IH (match recd t c with Some (_, sub) => sub | None => trie_default end)) as (k & ->); [|exists k; reflexivity].
  intros H. apply Hp. constructor; auto.
Qed.
Lemma latin_path_dec p : latin_path p \/ ~ latin_path p.
Proof.
  induction p as [|c s [IH|IH]]; [left; constructor| |right; inversion 1; auto].
  destruct (latin_dec c); [left; constructor; auto|right; inversion 1; auto].
Qed.

Lemma suffix_nil {E} (p : path) : @path_suffix E p [] = Ok p.
Proof. induction p as [|c p IH]; [reflexivity|]. cbn [path_suffix]. rewrite IH. reflexivity. Qed.
Lemma suffix_app {E} (pr suf : path) : @path_suffix E (pr ++ suf) pr = Ok suf.
Proof.
  induction pr as [|c pr IH]; [apply suffix_nil|]. cbn [app path_suffix]. 
  assert (Ec : str_eqb c c = true) by (apply str_eqb_spec; reflexivity). rewrite Ec. exact IH.
Qed.

Section Build.
Context (m : build) (keys : list ((str * str) * glob)).

Definition vrel (q : path) (c : option claim) (o : option mapent) : Prop :=
  match c with
  | None => o = None
  | Some (h, s, r) => exists me, o = Some me /\ m_host_path me = h
      /\ (r = q -> kind_as (m_host_entry me) s /\ m_is_prefix me = false)
      /\ (r <> q -> f_type (m_host_entry me) = TDirectory /\ m_is_prefix me = true)
  end.

Lemma add_all l ms : walked keys l ms -> forall t0 tr, foldM (add_match m keys) t0 ms = Ok tr ->
  exists cl, claims m keys l cl /\ Forall (fun c : claim => latin_path (snd c)) cl
   /\ forall q, q <> [] -> match val t0 q with Some w => val tr q = Some w | None => vrel q (claimant q cl) (val tr q) end.
Proof.
  intros HW. induction HW as [|p s l ms Hl HW IH|p s l e pr ms Hl Hk HW IH]; intros t0 tr H.
  - injection H as <-. exists []. split; [constructor|]. split; [constructor|]. intros q Hq. destruct (val t0 q) eqn:E; [reflexivity|]. cbn. reflexivity.
  - destruct (IH t0 tr H) as (cl & H1 & H2 & H3). exists cl. split; [|split; assumption]. apply cl_skip; [|exact H1].
    intros pr suf to caps HB. pose proof (lm_best keys p) as Hb. rewrite Hl in Hb. exfalso. exact (Hb _ _ HB).
  - cbn [foldM add_match] in H. pose proof (lm_best keys p) as Hb. rewrite Hl in Hb. destruct Hb as (suf & HB).
    pose proof HB as (Ep & _). rewrite Ep in H at 1. rewrite suffix_app in H. cbn [bind] in H.
    destruct (rewritten m keys pr suf) as [[r|]| | |] eqn:Er; cbn [bind] in H; try discriminate.
    + apply rewritten_spec in Er. destruct Er as (to & caps & HS & Er).
      destruct (latin_path_dec r) as [Hr|Hr]; [|destruct (chain_panic p e r t0 Hr) as (k & Ek); rewrite Ek in H; discriminate].
      destruct (chain_ok p e r t0 Hr) as (t1 & E1 & Hv). rewrite E1 in H. cbn [bind] in H.
      destruct (IH t1 tr H) as (cl & H1 & H2 & H3). exists ((p, s, r) :: cl). split; [|split].
      * apply cl_take; [|exact H1]. exists pr, suf, to, caps. auto.
      * constructor; auto.
      * intros q Hq. specialize (Hv q Hq). specialize (H3 q Hq). destruct (val t0 q) as [w|]; [rewrite Hv in H3; exact H3|].
        cbn [claimant]. destruct (path_eq_dec (firstn (length q) r) q).
        -- destruct Hv as (me & Ev & C1 & C2 & C3). rewrite Ev in H3. rewrite H3. cbn [vrel]. exists me. split; [reflexivity|]. split; [exact C1|]. split.
           ++ intros Eq. destruct (C2 (eq_sym Eq)) as (-> & ->). split; [exact Hk|reflexivity].
           ++ intros Hne. apply C3. congruence.
        -- rewrite Hv in H3. exact H3.
    + apply rewritten_spec in Er. destruct (IH t0 tr H) as (cl & H1 & H2 & H3). exists cl. split; [|split; assumption]. apply cl_skip; [|exact H1].
      intros pr' suf' to caps HB'. destruct (best_fun keys _ _ _ _ _ HB HB') as (<- & <-). apply Er.
Qed.
End Build.

(** ** The tree of a trie *)
Section Tree.
Context (bytes : path -> list byte).

Fixpoint otree (n : nat) (sub : trie mapent) : ftree :=
  FDir (match n with
        | O => []
        | S n => map (fun x => (fst x, match f_type (m_host_entry (snd x)) with
                                       | TFile => FFile (bytes (m_host_path (snd x)))
                                       | TDirectory => otree n (match recd sub (fst x) with Some (_, s) => s | None => trie_default end)
                                       end)) (trie_iter sub)
        end).

Definition deep (n : nat) (sub : trie mapent) : Prop := forall q, (n < length q)%nat -> val sub q = None.
Definition all_latin (sub : trie mapent) : Prop := forall q, val sub q <> None -> latin_path q.

Lemma deep_sub n sub s me sub' : deep (S n) sub -> recd sub s = Some (me, sub') -> deep n sub'.
Proof.
  intros H E q Hq. destruct q as [|c q]; [cbn in Hq; lia|]. specialize (H (s :: c :: q) ltac:(cbn in *; lia)). rewrite val_cons in H by discriminate. rewrite E in H. exact H.
Qed.
Lemma latin_sub sub s me sub' : all_latin sub -> recd sub s = Some (me, sub') -> all_latin sub'.
Proof.
  intros H E q Hq. destruct q as [|c q]; [constructor|]. specialize (H (s :: c :: q)). rewrite val_cons in H by discriminate. rewrite E in H.
  specialize (H Hq). inversion H; subst. assumption.
Qed.

Lemma iter_recd sub s me : all_latin sub -> (In (s, me) (trie_iter sub) <-> exists sub', recd sub s = Some (me, sub')).
Proof.
  intros HL. destruct (trie_iter_spec (T:=mapent) sub) as (_ & HI). rewrite HI. split; [tauto|]. intros (sub' & E). split; [|eauto].
  assert (Hl : latin_path [s]) by (apply HL; cbn; rewrite E; discriminate). inversion Hl; assumption.
Qed.

Definition shape (n : nat) (me : mapent) (sub : trie mapent) : ftree :=
  match f_type (m_host_entry me) with TFile => FFile (bytes (m_host_path me)) | TDirectory => otree n sub end.

Lemma otree_in n sub s x : deep n sub -> all_latin sub ->
  (exists cs, otree n sub = FDir cs /\ In (s, x) cs) <-> exists me sub', recd sub s = Some (me, sub') /\ x = shape (pred n) me sub' /\ n <> O.
Proof.
  intros HD HL. destruct n as [|n]; cbn [otree].
  - split; [intros (cs & [= <-] & [])|]. intros (me & sub' & E & _ & Hn). congruence.
  - split.
    + intros (cs & [= <-] & Hin). apply in_map_iff in Hin. destruct Hin as ([s' me] & Ex & Hin). cbn [fst snd] in Ex. injection Ex as -> <-.
      apply iter_recd in Hin; auto. destruct Hin as (sub' & E). exists me, sub'. split; [exact E|]. rewrite E. split; [reflexivity|discriminate].
    + intros (me & sub' & E & -> & _). eexists. split; [reflexivity|]. apply in_map_iff. exists (s, me). cbn [fst snd]. split; [|apply iter_recd; eauto].
      rewrite E. reflexivity.
Qed.

Definition opened (sub : trie mapent) (q : path) : Prop :=
  forall a c, q = a ++ c -> a <> [] -> c <> [] -> exists me, val sub a = Some me /\ f_type (m_host_entry me) = TDirectory.

Lemma at_otree : forall q n sub x, deep n sub -> all_latin sub -> q <> [] ->
  (at_path (otree n sub) q x <->
   opened sub q /\ exists me sub', val sub q = Some me /\ at_trie sub q = Some sub' /\ x = shape (n - length q) me sub').
Proof.
  induction q as [|s q IH]; intros n sub x HD HL Hq; [congruence|]. clear Hq. split.
  - intros H. inversion H as [|cs s' y q' x' Hin Hy E]; subst.
    destruct (proj1 (otree_in n sub s y HD HL)) as (me & sub' & Er & -> & Hn); [exists cs; auto|].
    destruct n as [|n]; [congruence|]. cbn [pred] in *.
    destruct q as [|c q].
    + inversion Hy; subst. split.
      * intros [|a1 a] c' E' Ha Hc; [congruence|]. injection E' as <- E'. symmetry in E'. apply app_eq_nil in E'. destruct E' as (-> & ->). congruence.
      * exists me, sub'. cbn [val at_trie]. rewrite Er. ssplit; auto. cbn [length]. replace (S n - 1)%nat with n by lia. reflexivity.
    + unfold shape in Hy. destruct (f_type (m_host_entry me)) eqn:Et; [inversion Hy|].
      apply (IH n sub' x (deep_sub _ _ _ _ _ HD Er) (latin_sub _ _ _ _ HL Er)) in Hy; [|discriminate].
      destruct Hy as (Ho & me' & sub2 & Ev & Ea & ->). split.
      * intros [|a1 a] c' E' Ha Hc; [congruence|]. injection E' as <- E'. destruct a as [|a2 a].
        -- exists me. cbn [val]. rewrite Er. auto.
        -- destruct (Ho (a2 :: a) c' E') as (me2 & E2 & H2); [discriminate|exact Hc|]. exists me2. rewrite val_cons by discriminate. rewrite Er. auto.
      * exists me', sub2. rewrite val_cons by discriminate. cbn [at_trie]. rewrite Er. ssplit; auto.
  - intros (Ho & me & sub' & Ev & Ea & ->). cbn [at_trie] in Ea. destruct (recd sub s) as [[me1 sub1]|] eqn:Er; [|discriminate].
    assert (Hn : n <> O).
    { intros ->. assert (val sub (s :: q) = None) by (apply HD; cbn; lia). congruence. }
    destruct n as [|n]; [congruence|].
    destruct (proj2 (otree_in (S n) sub s (shape n me1 sub1) HD HL)) as (cs & Ecs & Hin); [exists me1, sub1; auto|]. rewrite Ecs.
    destruct q as [|c q].
    + cbn [val] in Ev. rewrite Er in Ev. injection Ev as ->. cbn [at_trie] in Ea. injection Ea as ->. cbn [length].
      replace (S n - 1)%nat with n by lia. econstructor; [exact Hin|]. constructor.
    + econstructor; [exact Hin|]. destruct (Ho [s] (c :: q) eq_refl) as (me2 & E2 & Et); [discriminate|discriminate|].
      cbn [val] in E2. rewrite Er in E2. injection E2 as <-. unfold shape at 1. rewrite Et.
      apply (IH n sub1 _ (deep_sub _ _ _ _ _ HD Er) (latin_sub _ _ _ _ HL Er)); [discriminate|]. split.
      * intros a c' E' Ha Hc. destruct (Ho (s :: a) c') as (me2 & E2 & H2); [rewrite E'; reflexivity|discriminate|exact Hc|].
        exists me2. rewrite val_cons in E2 by exact Ha. rewrite Er in E2. auto.
      * exists me, sub'. rewrite val_cons in Ev by discriminate. rewrite Er in Ev. ssplit; auto.
Qed.

Lemma otree_dir n sub : exists cs, otree n sub = FDir cs.
Proof. destruct n; cbn; eexists; reflexivity. Qed.

Lemma otree_names n sub : forall cs, otree n sub = FDir cs -> NoDup (map fst cs).
Proof.
  intros cs E. destruct n; cbn [otree] in E; injection E as <-; [constructor|]. rewrite map_map. cbn [fst].
  destruct (trie_iter_spec (T:=mapent) sub) as (HN & _). exact HN.
Qed.

Lemma shape_dir n me sub cs : shape n me sub = FDir cs -> f_type (m_host_entry me) = TDirectory /\ otree n sub = FDir cs.
Proof. unfold shape. destruct (f_type (m_host_entry me)); [discriminate|auto]. Qed.

Lemma otree_at_dir n sub q cs : deep n sub -> all_latin sub -> at_path (otree n sub) q (FDir cs) ->
  exists sub' k, at_trie sub q = Some sub' /\ otree k sub' = FDir cs /\ latin_path q /\ deep k sub' /\ all_latin sub'.
Proof.
  intros HD HL H. destruct q as [|s q].
  - assert (E : otree n sub = FDir cs) by (inversion H; auto). exists sub, n. ssplit; auto. constructor.
  - apply at_otree in H; auto; [|discriminate]. destruct H as (_ & me & sub' & Ev & Ea & Ex). symmetry in Ex. apply shape_dir in Ex. destruct Ex as (_ & Ex).
    exists sub', (n - length (s :: q))%nat. ssplit; auto.
    + apply HL. congruence.
    + intros c Hc. assert (E : val sub ((s :: q) ++ c) = val sub' c).
      { clear - Ea Hc. assert (Hn : c <> []) by (destruct c; [cbn in Hc; lia|discriminate]). clear Hc. revert sub Ea Hn. generalize (s :: q) as p.
        induction p as [|x p IH]; intros sub Ea Hn; [injection Ea as ->; reflexivity|]. cbn [at_trie] in Ea. cbn [app]. rewrite val_cons by (destruct p, c; discriminate || congruence).
        destruct (recd sub x) as [[w s0]|]; [|discriminate]. apply IH; auto. }
      rewrite <- E. apply HD. rewrite app_length. cbn [length] in *. lia.
    + intros c Hc. destruct c as [|x c]; [constructor|]. assert (E : val sub ((s :: q) ++ x :: c) = val sub' (x :: c)).
      { clear - Ea. revert sub Ea. generalize (s :: q) as p. induction p as [|y p IH]; intros sub Ea; [injection Ea as ->; reflexivity|].
        cbn [at_trie] in Ea. cbn [app]. rewrite val_cons by (destruct p; discriminate). destruct (recd sub y) as [[w s0]|]; [|discriminate]. apply IH; auto. }
      assert (HLq : latin_path ((s :: q) ++ x :: c)) by (apply HL; rewrite E; exact Hc). apply Forall_app in HLq. tauto.
Qed.

Lemma otree_proper n sub : deep n sub -> all_latin sub -> proper (otree n sub).
Proof.
  intros HD HL p cs H. destruct (otree_at_dir n sub p cs HD HL H) as (sub' & k & _ & E & _). eapply otree_names; exact E.
Qed.

Lemma overlay_presents {D} (fs : fsys D) n tr : deep n tr -> all_latin tr ->
  (forall q me, val tr q = Some me -> f_type (m_host_entry me) = TFile -> f_len (m_host_entry me) = len (bytes (m_host_path me))) ->
  presents (overlay tr fs) (otree n tr).
Proof.
  intros HD HL HF p cs H. destruct (otree_at_dir n tr p cs HD HL H) as (sub & k & Ea & E & Hp & HDk & HLk).
  cbn [overlay read_dir]. rewrite subdir_at by auto. rewrite Ea. cbn [bind ok_or]. eexists. split; [reflexivity|].
  assert (HV : forall x, In x (trie_iter sub) -> f_type (m_host_entry (snd x)) = TFile -> f_len (m_host_entry (snd x)) = len (bytes (m_host_path (snd x)))).
  { intros [s me] Hx. cbn [snd]. apply (HF (p ++ [s])). rewrite val_app, Ea. apply iter_recd in Hx; auto. destruct Hx as (sub' & ->). reflexivity. }
  destruct k as [|k]; cbn [otree] in E; injection E as <-.
  - assert (Hi : trie_iter sub = []).
    { destruct (trie_iter sub) as [|[s me] l] eqn:El; [reflexivity|]. assert (Hin : In (s, me) (trie_iter sub)) by (rewrite El; left; reflexivity).
      apply iter_recd in Hin; auto. destruct Hin as (sub' & Er). assert (val sub [s] = None) by (apply HDk; cbn; lia). cbn [val] in *. rewrite Er in *. discriminate. }
    rewrite Hi. constructor.
  - clear H. revert HV. induction (trie_iter sub) as [|[s me] l IH]; intros HV; cbn [map]; constructor.
    + split; [reflexivity|]. cbn [fst snd f_type f_len]. pose proof (HV _ (or_introl eq_refl)) as Hx. cbn [snd] in Hx.
      destruct (f_type (m_host_entry me)); [auto|]. destruct (otree_dir k (match recd sub s with Some (_, s0) => s0 | None => trie_default end)) as (cs' & ->). reflexivity.
    + exact (IH (fun x Hx => HV x (or_intror Hx))).
Qed.

Lemma overlay_copies (fs : fsys (list byte)) t n tr : deep n tr -> all_latin tr ->
  (forall q me, val tr q = Some me -> f_type (m_host_entry me) = TFile -> at_path t (m_host_path me) (FFile (bytes (m_host_path me)))) ->
  copies fs t -> copies (overlay tr fs) (otree n tr).
Proof.
  intros HD HL HF HC p b img off H. destruct p as [|s p]; [destruct (otree_dir n tr) as (cs & E); rewrite E in H; inversion H|].
  apply at_otree in H; auto; [|discriminate]. destruct H as (_ & me & sub' & Ev & Ea & Ex).
  cbn [overlay copy_in]. rewrite get_val; [|apply HL; congruence|discriminate]. rewrite Ev. unfold shape in Ex.
  destruct (f_type (m_host_entry me)) eqn:Et; [|destruct (otree_dir (n - length (s :: p)) sub') as (cs & E); rewrite E in Ex; discriminate].
  injection Ex as ->. apply HC. apply (HF (s :: p)); auto.
Qed.
End Tree.

(** ** The whole overlay *)
Lemma order_at t : forall t' p h s, at_path t p t' -> In (h, s) (host_order p t') -> at_path t h s /\ h <> [].
Proof.
  induction t' as [b|cs IH] using ftree_rect'; intros p h s Hp Hin; [destruct Hin|]. cbn [host_order] in Hin. apply in_app_iff in Hin. destruct Hin as [Hin|Hin].
  - apply in_map_iff in Hin. destruct Hin as ([n x] & E & Hin). cbn [fst snd] in E. injection E as <- <-. split; [|destruct p; discriminate].
    apply (at_path_snoc _ _ _ _ _ Hp Hin).
  - apply in_concat in Hin. destruct Hin as (l & Hl & Hin). apply in_rev, in_map_iff in Hl. destruct Hl as ([n x] & <- & Hx). cbn [fst snd] in Hin.
    rewrite Forall_forall in IH. apply (IH (n, x) Hx (p ++ [n])); auto. apply (at_path_snoc _ _ _ _ _ Hp Hx).
Qed.

Lemma claims_in m keys l cl : claims m keys l cl -> forall h s r, In (h, s, r) cl -> In (h, s) l /\ maps_to m keys h r.
Proof.
  induction 1 as [|p s l cs Hn H IH|p s l r cs HM H IH]; intros h s' r' Hin; [destruct Hin|..].
  - destruct (IH _ _ _ Hin). split; [right|]; assumption.
  - destruct Hin as [[= <- <- <-]|Hin]; [split; [left; reflexivity|exact HM]|]. destruct (IH _ _ _ Hin). split; [right|]; assumption.
Qed.
Lemma claimant_in q cl h s r : claimant q cl = Some (h, s, r) -> In (h, s, r) cl /\ firstn (length q) r = q.
Proof.
  induction cl as [|[[h' s'] r'] cl IH]; cbn [claimant]; [discriminate|]. destruct (path_eq_dec (firstn (length q) r') q).
  - intros [= <- <- <-]. split; [left; reflexivity|assumption].
  - intros E. destruct (IH E). split; [right|]; assumption.
Qed.

Definition depth (cl : list claim) : nat := fold_right (fun (c : claim) n => Nat.max (length (snd c)) n) 0%nat cl.
Lemma depth_in c cl : In c cl -> (length (snd c) <= depth cl)%nat.
Proof.
  induction cl as [|x cl IH]; intros Hin; [destruct Hin|]. cbn [depth fold_right]. fold (depth cl). destruct Hin as [->|Hin]; [apply Nat.le_max_l|]. eapply Nat.le_trans; [exact (IH Hin)|apply Nat.le_max_r].
Qed.

Definition host_bytes (t : ftree) (h : path) : list byte := match lookup_tree h t with Some (FFile b) => b | _ => [] end.

Lemma compile_rules wax cfg keys : compile wax cfg = Ok keys -> rules wax cfg keys.
Proof.
  unfold compile, rules. revert keys. induction cfg as [|r cfg IH]; intros keys H; cbn [mapM] in H.
  - injection H as <-. constructor.
  - destruct (wax (trim_start_c BANG (fst r))) as [g|] eqn:Eg; cbn [ok_or bind] in H; [|discriminate].
    destruct (mapM _ cfg) as [ks| | |]; cbn [bind] in H; try discriminate. injection H as <-. constructor; [|apply IH; reflexivity]. split; [reflexivity|exact Eg].
Qed.

Section Overlay.
Context (m : build) (keys : list ((str * str) * glob)) (t : ftree) (tr : trie mapent) (cl : list claim).
Hypotheses (HP : proper t) (HC : claims m keys (host_order [] t) cl) (HL : Forall (fun c : claim => latin_path (snd c)) cl)
  (HV : forall q, q <> [] -> vrel q (claimant q cl) (val tr q)).

Lemma ov_val q me : val tr q = Some me -> q <> [] /\ exists h s r, claimant q cl = Some (h, s, r) /\ at_path t h s /\ In (h, s, r) cl /\ firstn (length q) r = q
  /\ m_host_path me = h /\ (r = q -> kind_as (m_host_entry me) s) /\ (r <> q -> f_type (m_host_entry me) = TDirectory).
Proof.
  intros E. assert (Hq : q <> []) by (intros ->; discriminate). split; [exact Hq|]. specialize (HV q Hq). rewrite E in HV. unfold vrel in HV.
  destruct (claimant q cl) as [[[h s] r]|] eqn:Ec; [|discriminate]. destruct HV as (me' & [= <-] & H1 & H2 & H3).
  exists h, s, r. pose proof (claimant_in _ _ _ _ _ Ec) as (Hin & Hf). destruct (claims_in _ _ _ _ HC _ _ _ Hin) as (Ho & _).
  destruct (order_at t t [] h s (at_here t) Ho) as (Ha & _). ssplit; auto; [intros Er; apply H2; exact Er|intros Er; apply H3; exact Er].
Qed.
Lemma ov_latin : all_latin tr.
Proof.
  intros q Hq. destruct (val tr q) as [me|] eqn:E; [|congruence]. apply ov_val in E. destruct E as (_ & h & s & r & _ & _ & Hin & Hf & _).
  rewrite Forall_forall in HL. specialize (HL _ Hin). cbn [snd] in HL. rewrite <- (firstn_skipn (length q) r) in HL. apply Forall_app in HL. rewrite Hf in HL. tauto.
Qed.
Lemma ov_deep : deep (depth cl) tr.
Proof.
  intros q Hq. destruct (val tr q) as [me|] eqn:E; [|reflexivity]. apply ov_val in E. destruct E as (_ & h & s & r & _ & _ & Hin & Hf & _).
  apply depth_in in Hin. cbn [snd] in Hin. apply (f_equal (@length _)) in Hf. rewrite firstn_length in Hf. lia.
Qed.
Lemma ov_file q me : val tr q = Some me -> f_type (m_host_entry me) = TFile ->
  at_path t (m_host_path me) (FFile (host_bytes t (m_host_path me))) /\ f_len (m_host_entry me) = len (host_bytes t (m_host_path me))
  /\ node_at cl q = Some (NFile (m_host_path me) (host_bytes t (m_host_path me))).
Proof.
  intros E Et. apply ov_val in E. destruct E as (_ & h & s & r & Ec & Ha & _ & _ & -> & H1 & H2).
  destruct (path_eq_dec r q) as [Er|Er]; [|rewrite (H2 Er) in Et; discriminate]. specialize (H1 Er).
  destruct s as [b|cs]; cbn in H1; [|congruence].
  assert (Eb : host_bytes t h = b) by (apply lookup_at in Ha; auto; unfold host_bytes; rewrite Ha; reflexivity). rewrite Eb.
  split; [exact Ha|]. split; [apply H1|]. unfold node_at. rewrite Ec. destruct (path_eq_dec r q); [reflexivity|contradiction].
Qed.
Lemma ov_node q : q <> [] -> match node_at cl q with
  | None => val tr q = None
  | Some NDir => exists me, val tr q = Some me /\ f_type (m_host_entry me) = TDirectory
  | Some (NFile h b) => exists me, val tr q = Some me /\ f_type (m_host_entry me) = TFile /\ m_host_path me = h /\ host_bytes t h = b
  end.
Proof.
  intros Hq. specialize (HV q Hq). unfold vrel in HV. unfold node_at. destruct (claimant q cl) as [[[h s] r]|] eqn:Ec; [|exact HV].
  destruct HV as (me & E & H1 & H2 & H3). destruct (path_eq_dec r q) as [Er|Er].
  - destruct (H2 Er) as (Hk & _). destruct s as [b|cs]; cbn in Hk.
    + exists me. ssplit; auto; [tauto|]. pose proof (claimant_in _ _ _ _ _ Ec) as (Hin & _). destruct (claims_in _ _ _ _ HC _ _ _ Hin) as (Ho & _).
      destruct (order_at t t [] _ _ (at_here t) Ho) as (Ha & _). apply lookup_at in Ha; auto. unfold host_bytes. rewrite Ha. reflexivity.
    + exists me. auto.
  - exists me. split; [exact E|]. apply H3. exact Er.
Qed.
Lemma ov_open q : opened tr q <-> open_to cl q.
Proof.
  unfold opened, open_to. split; intros H a c E Ha Hc; specialize (H a c E Ha Hc); pose proof (ov_node a Ha) as Hn.
  - destruct H as (me & Ev & Et). destruct (node_at cl a) as [[|h b]|]; [reflexivity| |congruence].
    destruct Hn as (me' & Ev' & Et' & _). congruence.
  - rewrite H in Hn. exact Hn.
Qed.

Lemma ov_shows : overlay_shows cl (otree (host_bytes t) (depth cl) tr).
Proof.
  unfold overlay_shows. split; [destruct (otree_dir (host_bytes t) (depth cl) tr) as (cs & ->); reflexivity|]. split; [apply otree_proper; [apply ov_deep|apply ov_latin]|]. split.
  - intros q b. destruct q as [|s q].
    { destruct (otree_dir (host_bytes t) (depth cl) tr) as (cs & E). rewrite E. split; [inversion 1|intros (H & _); congruence]. }
    rewrite at_otree; [|apply ov_deep|apply ov_latin|discriminate]. rewrite ov_open. split.
    + intros (Ho & me & sub & Ev & Ea & Ex). split; [discriminate|]. split; [exact Ho|]. unfold shape in Ex.
      destruct (f_type (m_host_entry me)) eqn:Et; [|destruct (otree_dir (host_bytes t) (depth cl - length (s :: q)) sub) as (cs & E); rewrite E in Ex; discriminate].
      injection Ex as ->. exists (m_host_path me). apply (ov_file (s :: q)); auto.
    + intros (_ & Ho & h & Hn). split; [exact Ho|]. pose proof (ov_node (s :: q) ltac:(discriminate)) as H. rewrite Hn in H.
      destruct H as (me & Ev & Et & Eh & Eb). destruct (at_trie tr (s :: q)) as [sub|] eqn:Ea.
      * exists me, sub. ssplit; auto. unfold shape. rewrite Et, Eh, Eb. reflexivity.
      * exfalso. assert (val tr (s :: q) <> None) as Hx by congruence. apply at_val in Hx; [congruence|discriminate].
  - intros q Hq. assert (HD := ov_deep). assert (HLt := ov_latin). split.
    + intros (cs & H). apply at_otree in H; auto. rewrite ov_open in H. destruct H as (Ho & me & sub & Ev & Ea & Ex). split; [exact Ho|].
      symmetry in Ex. apply shape_dir in Ex. destruct Ex as (Et & _). pose proof (ov_node q Hq) as Hn.
      destruct (node_at cl q) as [[|h b]|]; [reflexivity| |congruence]. destruct Hn as (me' & Ev' & Et' & _). congruence.
    + intros (Ho & Hn). pose proof (ov_node q Hq) as H. rewrite Hn in H. destruct H as (me & Ev & Et).
      destruct (at_trie tr q) as [sub|] eqn:Ea; [|exfalso; assert (val tr q <> None) as Hx by congruence; apply at_val in Hx; [congruence|exact Hq]].
      destruct (otree_dir (host_bytes t) (depth cl - length q) sub) as (cs & Ecs). exists cs. apply at_otree; auto. split; [apply ov_open; exact Ho|].
      exists me, sub. ssplit; auto. unfold shape. rewrite Et. auto.
Qed.
End Overlay.

Lemma c43_lemma fuel m wax (fs : fsys (list byte)) cfg t tr :
  is_fdir t = true -> proper t -> presents fs t -> remap_new fuel m wax fs cfg = Ok tr ->
  exists keys cl t', rules wax cfg keys /\ claims m keys (host_order [] t) cl /\ overlay_shows cl t'
   /\ presents (overlay tr fs) t' /\ (copies fs t -> copies (overlay tr fs) t').
Proof.
  intros Hd HP HPr H. unfold remap_new in H. destruct (compile wax cfg) as [keys| | |] eqn:Ek; cbn [bind] in H; try discriminate.
  destruct (walk_host keys fuel fs [([], None)] []) as [ms| | |] eqn:Ew; cbn [bind] in H; try discriminate.
  destruct t as [b|cs]; [discriminate|]. destruct (walk_root keys fs cs HPr) as (ms' & HW & _ & Hu). rewrite (Hu _ _ Ew) in H.
  destruct (add_all m keys _ _ HW _ _ H) as (cl & HC & HL & HV).
  assert (HV' : forall q, q <> [] -> vrel q (claimant q cl) (val tr q)) by (intros q Hq; specialize (HV q Hq); rewrite val_default in HV; exact HV).
  exists keys, cl, (otree (host_bytes (FDir cs)) (depth cl) tr). split; [apply compile_rules; exact Ek|]. split; [exact HC|]. split.
  - eapply ov_shows; eauto.
  - assert (HD : deep (depth cl) tr) by (eapply ov_deep; eauto). assert (HLt : all_latin tr) by (eapply ov_latin; eauto). split.
    + apply overlay_presents; auto. intros q me Ev Et. eapply ov_file in Ev; eauto. tauto.
    + intros Hc. eapply overlay_copies; eauto. intros q me Ev Et. eapply ov_file in Ev; eauto. tauto.
Qed.

(** The claims are determined by the rules. *)
Lemma selects_fun keys s to caps to' caps' : selects keys s to caps -> selects keys s to' caps' -> to = to' /\ caps = caps'.
Proof.
  intros (l1 & l2 & from & g & E & Hg & Hn & HL2 & HL1) (l1' & l2' & from' & g' & E' & Hg' & Hn' & HL2' & HL1').
  rewrite E in E'. apply app_cases in E'. destruct E' as [(z & Ez & Ey)|(z & Ez & Ey)].
  - destruct (HL1' l1 (from, to, g) z Ez) as (n & Hin & Hm & Hneg); [unfold matches_rule; cbn [snd]; congruence|exact Hn|].
    exfalso. apply (HL2 n); auto. rewrite Ey. apply in_app_iff. left. exact Hin.
  - destruct z as [|k z].
    + cbn [app] in Ey. injection Ey as -> -> -> ->. split; [reflexivity|congruence].
    + cbn [app] in Ey. injection Ey as <- Ey. destruct (HL1 l1' (from', to', g') z Ez) as (n & Hin & Hm & Hneg); [unfold matches_rule; cbn [snd]; congruence|exact Hn'|].
      exfalso. apply (HL2' n); auto. rewrite Ey. apply in_app_iff. left. exact Hin.
Qed.
Lemma maps_to_fun m keys p r r' : maps_to m keys p r -> maps_to m keys p r' -> r = r'.
Proof.
  intros (pr & suf & to & caps & HB & HS & Er) (pr' & suf' & to' & caps' & HB' & HS' & Er').
  destruct (best_fun _ _ _ _ _ _ HB HB') as (<- & <-). destruct (selects_fun _ _ _ _ _ _ HS HS') as (<- & <-). congruence.
Qed.
Lemma claims_fun m keys l cl cl' : claims m keys l cl -> claims m keys l cl' -> cl = cl'.
Proof.
  intros H. revert cl'. induction H as [|p s l cs Hn H IH|p s l r cs HM H IH]; intros cl' H'; inversion H' as [|? ? ? ? Hn' H1|? ? ? r' cs' HM' H1]; subst; auto.
  - exfalso. destruct HM' as (pr & suf & to & caps & HB & HS & _). exact (Hn _ _ _ _ HB HS).
  - exfalso. destruct HM as (pr & suf & to & caps & HB & HS & _). exact (Hn' _ _ _ _ HB HS).
  - rewrite (maps_to_fun _ _ _ _ _ HM HM'). f_equal. apply IH. exact H1.
Qed.

(** C44 *)
Lemma claimant_some q cl h s r : In (h, s, r) cl -> firstn (length q) r = q -> claimant q cl <> None.
Proof.
  induction cl as [|[[h' s'] r'] cl IH]; intros Hin Hf; [destruct Hin|]. cbn [claimant]. destruct (path_eq_dec (firstn (length q) r') q) as [|Hne]; [discriminate|].
  destruct Hin as [[= -> -> ->]|Hin]; [contradiction|]. apply IH; auto.
Qed.
Lemma firstn_prefix (a c : path) : firstn (length a) (a ++ c) = a.
Proof. rewrite firstn_app, Nat.sub_diag, firstn_all. cbn. apply app_nil_r. Qed.
Lemma c44_lemma cl t' h b r : overlay_shows cl t' -> In (h, FFile b, r) cl -> r <> [] ->
  (forall c x, In c cl -> snd c = r ++ x -> c = (h, FFile b, r)) ->
  (forall h' b' r' x, In (h', FFile b', r') cl -> r' ++ x = r -> r' <> [] -> x = []) ->
  at_path t' r (FFile b).
Proof.
  intros (_ & _ & HF & _) Hin Hr H1 H2. apply HF. split; [exact Hr|]. split.
  - intros a c E Ha Hc. unfold node_at.
    destruct (claimant a cl) as [[[h' s'] r']|] eqn:Ec; [|exfalso; eapply claimant_some; [exact Hin| |exact Ec]; rewrite E; apply firstn_prefix].
    destruct (path_eq_dec r' a) as [->|]; [|reflexivity]. apply claimant_in in Ec. destruct Ec as (Hin' & _).
    destruct s' as [b'|cs]; [|reflexivity]. exfalso. apply Hc. eapply H2; [exact Hin'|symmetry; exact E|exact Ha].
  - exists h. unfold node_at. destruct (claimant r cl) as [[[h' s'] r']|] eqn:Ec.
    + apply claimant_in in Ec. destruct Ec as (Hin' & Hf). specialize (H1 (h', s', r') (skipn (length r) r') Hin').
      cbn [snd] in H1.
      assert (Er : r' = r ++ skipn (length r) r') by (rewrite <- (firstn_skipn (length r) r') at 1; rewrite Hf; reflexivity). injection (H1 Er) as -> -> ->.
      destruct (path_eq_dec r r); [reflexivity|contradiction].
    + exfalso. eapply claimant_some; [exact Hin| |exact Ec]. apply firstn_all.
Qed.

(** C44, exactly. *)
Lemma claimant_app q l1 l2 : claimant q (l1 ++ l2) = match claimant q l1 with Some c => Some c | None => claimant q l2 end.
Proof. induction l1 as [|[[h s] r] l1 IH]; [reflexivity|]. cbn [claimant app]. destruct (path_eq_dec _ _); [reflexivity|exact IH]. Qed.
Lemma claimant_none q l : claimant q l = None <-> forall c x, In c l -> snd c <> q ++ x.
Proof.
  induction l as [|[[h s] r] l IH]; cbn [claimant]; [split; [intros _ c x []|reflexivity]|].
  destruct (path_eq_dec (firstn (length q) r) q) as [E|E]; split.
  - discriminate.
  - intros H. exfalso. apply (H (h, s, r) (skipn (length q) r)); [left; reflexivity|]. cbn [snd]. rewrite <- (firstn_skipn (length q) r) at 1. rewrite E. reflexivity.
  - intros H c x [<-|Hc]; [|apply (proj1 IH H); exact Hc]. cbn [snd]. intros ->. apply E. apply firstn_prefix.
  - intros H. apply IH. intros c x Hc. apply H. right. exact Hc.
Qed.
Lemma claimant_first q l c : claimant q l = Some c -> exists l1 l2, l = l1 ++ c :: l2 /\ claimant q l1 = None /\ firstn (length q) (snd c) = q.
Proof.
  induction l as [|[[h s] r] l IH]; cbn [claimant]; [discriminate|]. destruct (path_eq_dec (firstn (length q) r) q) as [E|E].
  - intros [= <-]. exists [], l. split; [reflexivity|]. split; [reflexivity|exact E].
  - intros H. destruct (IH H) as (l1 & l2 & -> & N1 & F). exists ((h, s, r) :: l1), l2. split; [reflexivity|]. split; [|exact F].
    cbn [claimant]. destruct (path_eq_dec _ _); [contradiction|exact N1].
Qed.
Lemma c44_exact_lemma cl t' h b r l1 l2 : overlay_shows cl t' -> cl = l1 ++ (h, FFile b, r) :: l2 -> ~ In (h, FFile b, r) l1 -> r <> [] ->
  ((at_path t' r (FFile b) /\ claimant r cl = Some (h, FFile b, r))
   <-> (forall c x, In c l1 -> snd c <> r ++ x)
       /\ (forall a x h' b' m1 m2, r = a ++ x -> a <> [] -> x <> [] -> cl = m1 ++ (h', FFile b', a) :: m2 -> exists c y, In c m1 /\ snd c = a ++ y)).
Proof.
  intros (_ & _ & HF & _) E N R. split.
  - intros (A & C). split.
    + apply claimant_none. destruct (claimant r l1) as [c|] eqn:E1; [|reflexivity]. exfalso. rewrite E, claimant_app, E1 in C. injection C as ->.
      apply claimant_first in E1 as (a & b' & -> & _). apply N. apply in_or_app. right. left. reflexivity.
    + intros a x h' b' m1 m2 Er Ha Hx Em. apply HF in A as (_ & O & _). specialize (O a x Er Ha Hx).
      destruct (claimant a m1) as [c|] eqn:E1.
      * apply claimant_first in E1 as (u & v & -> & _ & F). exists c, (skipn (length a) (snd c)). split; [apply in_or_app; right; left; reflexivity|].
        symmetry. rewrite <- F at 1. apply firstn_skipn.
      * exfalso. unfold node_at in O. rewrite Em, claimant_app, E1 in O. cbn [claimant] in O.
        destruct (path_eq_dec (firstn (length a) a) a) as [_|Q]; [|apply Q, firstn_all]. destruct (path_eq_dec a a) as [_|Q]; [discriminate O|apply Q; reflexivity].
  - intros (H1 & H2). apply claimant_none in H1.
    assert (C : claimant r cl = Some (h, FFile b, r)).
    { rewrite E, claimant_app, H1. cbn [claimant]. destruct (path_eq_dec _ _) as [_|Q]; [reflexivity|exfalso; apply Q, firstn_all]. }
    split; [|exact C]. apply HF. split; [exact R|]. split.
    + intros a x Er Ha Hx. unfold node_at. destruct (claimant a cl) as [[[h' s'] r']|] eqn:Ec.
      * destruct (path_eq_dec r' a) as [->|]; [|reflexivity]. destruct s' as [b'|cs]; [|reflexivity]. exfalso.
        apply claimant_first in Ec as (m1 & m2 & Em & Nn & _). destruct (H2 a x h' b' m1 m2 Er Ha Hx Em) as (c & y & Hc & Q).
        exact (proj1 (claimant_none _ _) Nn c y Hc Q).
      * exfalso. eapply claimant_some; [|apply (firstn_prefix a x)|exact Ec]. rewrite <- Er, E. apply in_or_app. right. left. reflexivity.
    + exists h. unfold node_at. rewrite C. destruct (path_eq_dec r r) as [_|Q]; [reflexivity|exfalso; apply Q; reflexivity].
Qed.

(** C64: what can go wrong. *)
Lemma rewritten_fails m keys prefix suffix : match rewritten m keys prefix suffix with
  | Ok _ => True
  | Err e => exists from to g i k, In ((from, to), g) keys /\ e = InvalidRewriteSubstitution i to k /\ forall l, ~ template to l
  | Panic p => exists from to g, In ((from, to), g) keys /\ m = Debug /\ p = POverflow /\ huge_index to
  | OutOfFuel => False
  end.
Proof.
  unfold rewritten. generalize (@None path) as acc. induction keys as [|k l IH]; intros acc; [exact I|]. cbn [foldM].
  assert (Hl : forall acc', match foldM (apply_rule m prefix suffix) acc' l with
    | Ok _ => True
    | Err e => exists from to g i k', In ((from, to), g) (k :: l) /\ e = InvalidRewriteSubstitution i to k' /\ forall l, ~ template to l
    | Panic p => exists from to g, In ((from, to), g) (k :: l) /\ m = Debug /\ p = POverflow /\ huge_index to
    | OutOfFuel => False end).
  { intros acc'. specialize (IH acc'). destruct (foldM _ acc' l); auto.
    - destruct IH as (from & to & g & i & k' & Hin & H). exists from, to, g, i, k'. split; [right|]; assumption.
    - destruct IH as (from & to & g & Hin & H). exists from, to, g. split; [right|]; assumption. }
  unfold apply_rule at 1. destruct (snd k (candidate prefix)) as [caps|]; [|apply Hl].
  destruct (starts_with [BANG] (fst (fst k))); [apply Hl|]. destruct acc as [p|]; [apply Hl|].
  unfold rewrite_path. destruct k as [[from to] g]. cbn [fst snd] in *. destruct (c42_lemma m to) as (_ & Hc).
  destruct (find_match_indices m to) as [idxs|[|i w kk|]|p|]; cbn [bind]; try contradiction; [apply Hl| |].
  - destruct Hc as (-> & Hc & _). exists from, to, g, i, kk. split; [left; reflexivity|]. auto.
  - destruct Hc as (-> & -> & Hc). exists from, to, g. split; [left; reflexivity|]. auto.
Qed.

Lemma rules_in wax cfg keys from to g : rules wax cfg keys -> In ((from, to), g) keys -> In (from, to) cfg.
Proof.
  intros H. induction H as [|r k cfg keys (Hk & _) H IH]; intros Hin; [destruct Hin|].
  destruct Hin as [->|Hin]; [left; symmetry; exact Hk|right; auto].
Qed.

Lemma add_fails m keys l ms : walked keys l ms -> forall t0, match foldM (add_match m keys) t0 ms with
  | Ok _ => True
  | Err e => exists from to g i k, In ((from, to), g) keys /\ e = InvalidRewriteSubstitution i to k /\ forall l, ~ template to l
  | Panic p => (exists h s r, In (h, s) l /\ maps_to m keys h r /\ ~ latin_path r)
               \/ exists from to g, In ((from, to), g) keys /\ m = Debug /\ p = POverflow /\ huge_index to
  | OutOfFuel => False
  end.
Proof.
  intros HW. induction HW as [|p s l ms Hl HW IH|p s l e pr ms Hl Hk HW IH]; intros t0; [exact I| |].
  - specialize (IH t0). destruct (foldM _ t0 ms); auto. destruct IH as [(h & s' & r & Hin & H)|IH]; [left|right; exact IH].
    exists h, s', r. split; [right|]; assumption.
  - cbn [foldM add_match]. pose proof (lm_best keys p) as Hb. rewrite Hl in Hb. destruct Hb as (suf & HB).
    pose proof HB as (Ep & _).
    assert (Es : path_suffix (E:=rmerr) p pr = Ok suf) by (rewrite Ep; apply suffix_app). rewrite Es. cbn [bind].
    assert (Hg : forall t1, match foldM (add_match m keys) t1 ms with
      | Ok _ => True
      | Err e => exists from to g i k, In ((from, to), g) keys /\ e = InvalidRewriteSubstitution i to k /\ forall l, ~ template to l
      | Panic p' => (exists h s0 r, In (h, s0) ((p, s) :: l) /\ maps_to m keys h r /\ ~ latin_path r)
               \/ exists from to g, In ((from, to), g) keys /\ m = Debug /\ p' = POverflow /\ huge_index to
      | OutOfFuel => False end).
    { intros t1. specialize (IH t1). destruct (foldM _ t1 ms); auto. destruct IH as [(h & s' & r & Hin & H)|IH]; [left|right; exact IH].
      exists h, s', r. split; [right|]; assumption. }
    pose proof (rewritten_fails m keys pr suf) as Hf. destruct (rewritten m keys pr suf) as [[r|]|e'|p'|] eqn:Er; cbn [bind]; auto.
    + apply rewritten_spec in Er. destruct Er as (to & caps & HS & Er).
      destruct (latin_path_dec r) as [Hr|Hr].
      * destruct (chain_ok p e r t0 Hr) as (t1 & -> & _). cbn [bind]. apply Hg.
      * destruct (chain_panic p e r t0 Hr) as (k & ->). cbn [bind]. left. exists p, s, r. split; [left; reflexivity|]. split; [|exact Hr].
        exists pr, suf, to, caps. auto.
    + apply Hg.
Qed.

Lemma compile_fails wax cfg : match compile wax cfg with
  | Ok _ => True
  | Err e => e = GlobBuildingError /\ exists from to, In (from, to) cfg /\ wax (trim_start_c 33 from) = None
  | _ => False
  end.
Proof.
  unfold compile. induction cfg as [|[from to] cfg IH]; cbn [mapM]; [exact I|]. cbn [fst].
  destruct (wax (trim_start_c BANG from)) as [g|] eqn:Eg; cbn [ok_or bind].
  - destruct (mapM _ cfg); cbn [bind]; auto. destruct IH as (-> & f & t & Hin & H). split; [reflexivity|]. exists f, t. split; [right|]; assumption.
  - split; [reflexivity|]. exists from, to. split; [left; reflexivity|exact Eg].
Qed.

Lemma c64_lemma m wax (fs : fsys (list byte)) cfg t : is_fdir t = true -> presents fs t ->
  exists n, forall fuel, (n <= fuel)%nat ->
  match remap_new fuel m wax fs cfg with
  | Ok _ => True
  | Err GlobBuildingError => exists from to, In (from, to) cfg /\ wax (trim_start_c 33 from) = None
  | Err (InvalidRewriteSubstitution _ to _) => (exists from, In (from, to) cfg) /\ forall l, ~ template to l
  | Err (FilesystemError _) => False
  | Panic p => (exists keys h s r, rules wax cfg keys /\ at_path t h s /\ maps_to m keys h r /\ ~ latin_path r)
               \/ m = Debug /\ p = POverflow /\ exists from to, In (from, to) cfg /\ huge_index to
  | OutOfFuel => False
  end.
Proof.
  intros Hd HP. destruct t as [b|cs]; [discriminate|]. exists (ndirs (FDir cs)). intros fuel Hf. unfold remap_new.
  pose proof (compile_fails wax cfg) as Hc. destruct (compile wax cfg) as [keys|e| |] eqn:Ek; cbn [bind]; try contradiction.
  2: { destruct Hc as (-> & Hc). exact Hc. }
  apply compile_rules in Ek. destruct (walk_root keys fs cs HP) as (ms & HW & Hw & _). rewrite (Hw fuel Hf). cbn [bind].
  pose proof (add_fails m keys _ _ HW trie_default) as H. destruct (foldM (add_match m keys) trie_default ms) as [tr|e|p|]; auto.
  - destruct H as (from & to & g & i & k & Hin & -> & Ht). split; [|exact Ht]. exists from. eapply rules_in; eauto.
  - destruct H as [(h & s & r & Hin & HM & Hr)|(from & to & g & Hin & Hm & Hp & Hh)].
    + left. exists keys, h, s, r. split; [exact Ek|]. destruct (order_at (FDir cs) (FDir cs) [] h s (at_here _) Hin) as (Ha & _). auto.
    + right. ssplit; auto. exists from, to. split; [eapply rules_in; eauto|exact Hh].
Qed.

(** C63 *)
Lemma c63_lemma fuel m wax (fs : fsys (list byte)) cfg t tr :
  is_fdir t = true -> proper t -> presents fs t -> copies fs t -> remap_new fuel m wax fs cfg = Ok tr ->
  exists keys cl t', rules wax cfg keys /\ claims m keys (host_order [] t) cl /\ overlay_shows cl t'
   /\ (small t' -> forall fuel' evs evs' img, create_xdvdfs_image fuel' m file_wdev (overlay tr fs) ([], evs) = ((img, evs'), Ok tt) ->
       readable (file_dev img) t').
Proof.
  intros Hd HP HPr HC H. destruct (c43_lemma _ _ _ _ _ _ _ Hd HP HPr H) as (keys & cl & t' & H1 & H2 & H3 & H4 & H5).
  exists keys, cl, t'. ssplit; auto. intros Hs fuel' evs evs' img E. destruct H3 as (Hd' & HP' & _). apply (c14_readable m).
  - split; [exact Hd'|]. split; assumption.
  - exists (overlay tr fs), fuel', evs, evs'. auto.
Qed.
