(** Proofs about M_Build: build-image and image-spec (C79-C83). *)
From Verif Require Import M_Base M_Util M_Layout M_Read M_Img M_Dev M_Xfs M_Trie M_Remap M_Cli M_Unpack M_Exiso M_Stdfs M_Host M_Build.
From Verif Require Import S_Avl S_Codec S_Table S_Read S_Img S_Dev S_Trie S_Remap S_Xfs S_Check S_Cli S_Unpack S_Exiso S_Stdfs S_Build.
From Verif Require Import P_Base P_Tree P_Pack P_Image P_Packed P_More P_Cli P_Overlay P_Host P_Unpack P_Exiso P_Stdfs.
From Verif Require Import M_Host M_Build.
From Coq Require Import Init.Byte.
Local Open Scope N_scope.

(** ** Rules *)
Lemma split_at_plain x s : ~ In x s -> split_at x s = [s].
Proof.
  induction s as [|c s IH]; intros H; [reflexivity|]. cbn [split_at]. destruct (N.eqb_spec c x) as [->|Hn]; [destruct H; left; reflexivity|].
  rewrite IH; [reflexivity|]. intros Hi. apply H. right. exact Hi.
Qed.
Lemma split_at_first x a b : ~ In x a -> split_at x (a ++ x :: b) = a :: split_at x b.
Proof.
  induction a as [|c a IH]; intros H; cbn [app split_at]; [rewrite N.eqb_refl; reflexivity|]. destruct (N.eqb_spec c x) as [->|Hn]; [destruct H; left; reflexivity|].
  rewrite IH; [reflexivity|]. intros Hi. apply H. right. exact Hi.
Qed.
Lemma first_colon (x : N) (s : str) : ~ In x s \/ exists a b, s = a ++ x :: b /\ ~ In x a.
Proof.
  induction s as [|c s IH]; [left; intros []|]. destruct (N.eq_dec c x) as [->|Hn]; [right; exists [], s; split; [reflexivity|intros []]|].
  destruct IH as [H|(a & b & -> & H)]; [left; intros [E|E]; auto|right]. exists (c :: a), b. split; [reflexivity|]. intros [E|E]; auto.
Qed.
Lemma parse_map h i : ~ In 58 h -> ~ In 58 i -> parse_rule (h ++ 58 :: i) = Ok (h, i).
Proof. intros Hh Hi. unfold parse_rule, COLON. rewrite split_at_first, split_at_plain by auto. reflexivity. Qed.
Lemma parse_exclude h : ~ In 58 h -> parse_rule (33 :: h) = Ok (33 :: h, []).
Proof. intros Hh. unfold parse_rule, COLON. rewrite split_at_plain; [reflexivity|]. intros [E|E]; [discriminate|auto]. Qed.
Lemma parse_refused h : ~ In 58 h -> (forall h', h <> 33 :: h') -> parse_rule h = Err HRefused.
Proof.
  intros Hh Hb. unfold parse_rule, COLON. rewrite split_at_plain by auto. destruct h as [|c h]; [reflexivity|]. cbn. unfold BANG.
  destruct (N.eqb_spec 33 c) as [<-|Hn]; [destruct (Hb h eq_refl)|reflexivity].
Qed.
Lemma parse_case rule : (exists r, parse_rule rule = Ok r /\ (rule_of rule r \/ exists h i rest, rule = h ++ 58 :: i ++ 58 :: rest /\ r = (h, i)) /\ ~ In 58 (fst r) /\ ~ In 58 (snd r))
  \/ (parse_rule rule = Err HRefused /\ ~ In 58 rule /\ forall h, rule <> 33 :: h).
Proof.
  destruct (first_colon 58 rule) as [H|(h & b & -> & Hh)].
  - destruct rule as [|c h]; [right; ssplit; auto; discriminate|]. destruct (N.eq_dec c 33) as [->|Hn].
    + left. exists (33 :: h, []). assert (Hi : ~ In 58 h) by (intros E; apply H; right; exact E). ssplit; [apply parse_exclude; auto|left; constructor; auto|exact H|intros []].
    + right. ssplit; auto; [apply parse_refused; auto|]; intros h' E; congruence.
  - left. destruct (first_colon 58 b) as [Hb|(i & rest & -> & Hi)].
    + exists (h, b). ssplit; auto; [apply parse_map; auto|left; constructor].
    + exists (h, i). ssplit; auto; [|right; exists h, i, rest; auto]. unfold parse_rule, COLON. rewrite !split_at_first by auto. reflexivity.
Qed.
Lemma c79_lemma rule r : parse_rule rule = Ok r -> (forall h i j, rule <> h ++ 58 :: i ++ 58 :: j) -> rule_of rule r.
Proof.
  intros H Hn. destruct (parse_case rule) as [(r' & E & [D|(h & i & j & D & _)] & _)|(E & _)]; [congruence|destruct (Hn _ _ _ D)|congruence].
Qed.
Lemma c79_complete rule r : rule_of rule r -> (forall h i j, rule <> h ++ 58 :: i ++ 58 :: j) -> parse_rule rule = Ok r.
Proof.
  intros [h i|h Hh] Hn; [|apply parse_exclude; auto].
  apply parse_map; intros Hi; apply in_split in Hi as (a & b & ->); [apply (Hn a b i); rewrite <- app_assoc; reflexivity|apply (Hn h a b); reflexivity].
Qed.
Lemma parse_no_colon rule h i : parse_rule rule = Ok (h, i) -> ~ In 58 h /\ ~ In 58 i.
Proof. intros H. destruct (parse_case rule) as [(r & E & _ & A & B)|(E & _)]; rewrite E in H; [injection H as ->; auto|discriminate]. Qed.

(** ** Specs *)
Definition tagged (c : config) : list (str * tvalue) := map (fun r => (fst r, TString (snd r))) c.
Lemma insert_fresh l k v : ~ In k (map fst l) -> table_insert l k v = l ++ [(k, v)].
Proof.
  induction l as [|[k' v'] l IH]; intros H; [reflexivity|]. cbn [table_insert map fst app] in *. rewrite str_eqb_other by (intros E; apply H; left; exact E).
  rewrite IH; [reflexivity|]. intros Hi. apply H. right. exact Hi.
Qed.
Lemma tagged_fst c : map fst (tagged c) = map fst c.
Proof. unfold tagged. rewrite map_map. reflexivity. Qed.
Lemma spec_fold rules : forall cfg l, mapM parse_rule rules = Ok cfg -> NoDup (map fst l ++ map fst cfg) ->
  foldM (fun t rule => let* (h, i) := parse_rule rule in Ok (table_insert t h (TString i))) l rules = (Ok (l ++ tagged cfg) : res herr _).
Proof.
  induction rules as [|r rules IH]; intros cfg l H Hn; cbn [mapM foldM] in *; [injection H as <-; unfold tagged; rewrite app_nil_r; reflexivity|].
  destruct (parse_rule r) as [[h i]|e|e|]; cbn [bind] in *; try discriminate. destruct (mapM parse_rule rules) as [cfg'|e|e|]; cbn [bind] in *; try discriminate. injection H as <-.
  cbn [map fst] in Hn. pose proof (NoDup_remove_2 _ _ _ Hn) as Hf. rewrite insert_fresh by (intros Hi; apply Hf, in_or_app; left; exact Hi).
  rewrite (IH cfg' (l ++ [(h, TString i)]) eq_refl); [rewrite <- app_assoc; reflexivity|]. rewrite map_app, <- app_assoc. exact Hn.
Qed.
Lemma spec_rules_tagged c o : spec_rules (mkSpec o (Some (tagged c))) = Ok c.
Proof.
  unfold spec_rules. cbn [s_rules]. induction c as [|[h i] c IH]; [reflexivity|]. cbn [tagged map fst snd mapM bind] in *. fold (tagged c). rewrite IH. reflexivity.
Qed.
Lemma spec_from_rules rules o cfg : mapM parse_rule rules = Ok cfg -> NoDup (map fst cfg) -> spec_from (Some rules) o = Ok (mkSpec o (Some (tagged cfg))).
Proof. intros H Hn. unfold spec_from. rewrite (spec_fold rules cfg [] H Hn). reflexivity. Qed.

(** ** Paths *)
Lemma hwalk_app h a : forall cur b d, hwalk h cur a = Ok d -> hwalk h cur (a ++ b) = hwalk h d b.
Proof.
  induction a as [|c a IH]; intros cur b d H; cbn [app hwalk] in *; [injection H as ->; reflexivity|]. destruct (is_dotdot c); [apply IH; exact H|].
  destruct (h (cur ++ [c])) as [[|x]|]; try discriminate. apply IH. exact H.
Qed.
Lemma canonical_walk h cwd s p : canonicalize h cwd s = Ok p -> h p = Some HDir -> hwalk h (hstart cwd s) (pcomps s) = Ok p /\ has_nul (pcomps s) = false /\ s <> [].
Proof.
  unfold canonicalize. destruct (has_nul (pcomps s)); [discriminate|]. destruct s as [|c0 s0]; [discriminate|]. set (s := c0 :: s0) in *. intros H Hp. ssplit; [|auto|discriminate].
  unfold hlocate in H. destruct (split_last_case (pcomps s)) as [(E & E')|(i & c & E & E')]; rewrite E' in H; cbn [bind] in H; [injection H as <-; rewrite E; reflexivity|].
  destruct (hwalk h (hstart cwd s) i) as [d|e|e|] eqn:W; cbn [bind] in H; try discriminate. rewrite E, (hwalk_app _ _ _ _ _ W). cbn [hwalk].
  destruct (is_dotdot c); cbn [bind] in H; [exact H|]. destruct (h (d ++ [c])) as [[|b]|] eqn:Eh; try discriminate; [exact H|]. destruct (dirlike s); [discriminate|]. injection H as <-. congruence.
Qed.
Lemma walk_locate h cwd s p n b : hwalk h (hstart cwd s) (pcomps s) = Ok p -> has_nul (pcomps s) = false -> unix_name n -> h (p ++ [n]) = Some (HFile b) -> canonicalize h cwd (pjoin s n) = Ok (p ++ [n]).
Proof.
  intros W Hn Un Hb. assert (Hr : is_absolute n = false) by (apply name_relative; apply Un). unfold canonicalize. rewrite pcomps_pjoin, hstart_pjoin, dirlike_pjoin by auto. rewrite (pcomps_name n Un).
  rewrite has_nul_app, Hn, (names_nul [n]) by (constructor; auto). cbn [orb]. pose proof (pjoin_nonempty s n Hr ltac:(apply Un)) as Hne. destruct (pjoin s n); [congruence|].
  unfold hlocate. rewrite split_last_snoc, W. cbn [bind]. rewrite is_dotdot_false by apply Un. cbn [bind]. rewrite Hb, (name_dirlike n Un). reflexivity.
Qed.
Lemma walk_absent h cwd s p n : hwalk h (hstart cwd s) (pcomps s) = Ok p -> unix_name n -> h (p ++ [n]) = None -> exists_at h cwd (pjoin s n) = false.
Proof.
  intros W Un Hb. assert (Hr : is_absolute n = false) by (apply name_relative; apply Un). unfold exists_at, canonicalize. rewrite pcomps_pjoin, hstart_pjoin, dirlike_pjoin by auto. rewrite (pcomps_name n Un).
  destruct (has_nul _); [reflexivity|]. destruct (pjoin s n); [reflexivity|].
  unfold hlocate. rewrite split_last_snoc, W. cbn [bind]. rewrite is_dotdot_false by apply Un. cbn [bind]. rewrite Hb. reflexivity.
Qed.
Lemma toml_name : unix_name TOML.
Proof. unfold unix_name, TOML. ssplit; try discriminate; cbn; intuition discriminate. Qed.

(** ** C80: a spec for the options *)
Section Run.
Context {O : Type} (toml : list byte -> option spec).
Context (mk : host -> list str -> config -> res herr O) (pk : host -> list str -> O -> list byte * res herr unit).
Notation run := (build_image toml mk pk).

Lemma dir_paths h cwd a p : canonicalize h cwd (source_of cwd a) = Ok p -> h p = Some HDir ->
  build_paths h cwd a = Ok (match b_spec a with Some s => s | None => pjoin (source_of cwd a) TOML end, source_of cwd a).
Proof. intros Hc Hp. unfold build_paths. fold (source_of cwd a). unfold is_dir_path. rewrite Hc, Hp. reflexivity. Qed.

Lemma c80_lemma cwd rules cfg o dry source image bytes sp p w :
  mapM parse_rule rules = Ok cfg -> NoDup (map fst cfg) -> spec_from (Some rules) o = Ok sp -> toml bytes = Some sp ->
  canonicalize (w_fs w) cwd (source_of cwd (by_spec dry source image)) = Ok p -> w_fs w p = Some HDir -> w_fs w (p ++ [TOML]) = Some (HFile bytes) ->
  (o = None \/ image <> None) ->
  run cwd (by_spec dry source image) w = run cwd (by_options rules o dry source image) w.
Proof.
  intros Hm Hn Hs Ht Hc Hp Hb Ho. rewrite (spec_from_rules rules o cfg Hm Hn) in Hs. injection Hs as <-. destruct (canonical_walk _ _ _ _ Hc Hp) as (W & Hnul & _).
  pose proof (walk_locate _ _ _ _ _ _ W Hnul toml_name Hb) as Hl.
  unfold build_image. unfold hbind at 1 3, hres. rewrite (dir_paths _ _ (by_spec dry source image) p Hc Hp), (dir_paths _ _ (by_options rules o dry source image) p Hc Hp). cbn [b_spec by_spec by_options bind].
  unfold build_rules. cbn [b_map by_spec by_options]. rewrite Hm. cbn [bind]. unfold exists_at, read_file. cbn [source_of b_source by_spec by_options] in *. fold (source_of cwd (by_spec dry source image)) in *. rewrite Hl. cbn [bind]. rewrite Hb. cbn [bind]. rewrite Ht. cbn [ok_or bind]. rewrite spec_rules_tagged. cbn [bind app].
  destruct cfg as [|r cfg]; [reflexivity|]. unfold build_image_path. cbn [b_image b_dry_run by_spec by_options]. change (source_of cwd (by_options rules o dry source image)) with (source_of cwd (by_spec dry source image)).
  destruct Ho as [->|Hi]; [reflexivity|]. destruct image; [|congruence]. reflexivity.
Qed.

(** ** C82: what changes *)
Lemma build_step cwd a w w' r : run cwd a w = (w', r) ->
  (w' = w /\ forall o, r = Ok o -> b_dry_run a = true /\ o <> None)
  \/ b_dry_run a = false /\ exists spec_path source rules s root o,
      build_paths (w_fs w) cwd a = Ok (spec_path, source) /\ build_rules toml (w_fs w) cwd a spec_path = Ok (rules, s) /\ rules <> []
      /\ canonicalize (w_fs w) cwd source = Ok root /\ mk (w_fs w) root rules = Ok o
      /\ ((exists e, open_trunc cwd (build_image_path a s source) w = (w', e) /\ (forall p, e <> Ok p) /\ forall x, r <> Ok x)
          \/ exists w1 p b r', open_trunc cwd (build_image_path a s source) w = (w1, Ok p) /\ pk (w_fs w1) root o = (b, r')
             /\ w' = after w1 (hset (w_fs w1) p (HFile b)) 0 /\ r = (let* _ := r' in Ok None)).
Proof.
  unfold build_image. unfold hbind at 1, hres. destruct (build_paths (w_fs w) cwd a) as [[spec_path source]|e|e|] eqn:E1; cbn [bind];
    try (intros H; injection H as <- <-; left; split; [reflexivity|intros o Ho; discriminate]).
  destruct (build_rules toml (w_fs w) cwd a spec_path) as [[rules s]|e|e|] eqn:E2; cbn [bind]; try (intros H; injection H as <- <-; left; split; [reflexivity|intros o Ho; discriminate]).
  destruct rules as [|r0 rules]; [intros H; injection H as <- <-; left; split; [reflexivity|intros o Ho; discriminate]|].
  destruct (canonicalize (w_fs w) cwd source) as [root|e|e|] eqn:E3; cbn [bind]; try (intros H; injection H as <- <-; left; split; [reflexivity|intros o Ho; discriminate]).
  destruct (mk (w_fs w) root (r0 :: rules)) as [o|e|e|] eqn:E4; cbn [bind]; try (intros H; injection H as <- <-; left; split; [reflexivity|intros x Ho; discriminate]).
  destruct (b_dry_run a) eqn:Ed; [intros H; injection H as <- <-; left; split; [reflexivity|intros x Hx; injection Hx as <-; split; [reflexivity|discriminate]]|].
  intros H. right. split; [reflexivity|]. exists spec_path, source, (r0 :: rules), s, root, o. ssplit; auto; [discriminate|].
  unfold hbind in H. destruct (open_trunc cwd (build_image_path a s source) w) as [w1 [p|e|e|]] eqn:E5.
  - right. destruct (pk (w_fs w1) root o) as [b r'] eqn:E6. injection H as <- <-. exists w1, p, b, r'. ssplit; auto.
  - left. injection H as <- <-. eexists. ssplit; [reflexivity| |]; discriminate.
  - left. injection H as <- <-. eexists. ssplit; [reflexivity| |]; discriminate.
  - left. injection H as <- <-. eexists. ssplit; [reflexivity| |]; discriminate.
Qed.
Lemma c82_dry cwd a w : b_dry_run a = true -> fst (run cwd a w) = w.
Proof.
  intros Hd. destruct (run cwd a w) as [w' r] eqn:E. apply build_step in E as [(-> & _)|(H & _)]; [reflexivity|congruence].
Qed.
Lemma c82_one cwd a w w' r : run cwd a w = (w', r) -> exists o, changes_only o (w_fs w) (w_fs w').
Proof.
  intros E. apply build_step in E as [(-> & _)|(_ & sp & src & rules & s & root & o & _ & _ & _ & _ & _ & [(e & E & He & _)|(w1 & p & b & r' & E & _ & -> & _)])].
  - exists []. intros q. left. reflexivity.
  - exists []. apply open_case in E. destruct e as [p|e|e|]; [destruct (He p eq_refl)| | |]; rewrite E; intros q; left; reflexivity.
  - exists p. apply open_case in E as (F1 & F2 & _). cbn [after w_fs]. rewrite F2. intros q. destruct (hpath_eqb_spec q p) as [->|Hq].
    + right. rewrite hset_eq. ssplit; auto. exists b. reflexivity.
    + left. rewrite !hset_neq by auto. reflexivity.
Qed.
(** Rules that cannot be used do not cost the old image. *)
Lemma c82_refused cwd a w w' r : run cwd a w = (w', r) -> w_fs w' <> w_fs w ->
  exists h root rules o, h = w_fs w /\ rules <> [] /\ mk h root rules = Ok o.
Proof.
  intros E Hn. apply build_step in E as [(-> & _)|(_ & sp & src & rules & s & root & o & _ & _ & Hr & _ & Hm & _)]; [congruence|]. exists (w_fs w), root, rules, o. auto.
Qed.
End Run.

(** ** C81: where the image goes *)
Lemma split_concat c cs : Forall (fun c => ~ In 47 c) (c :: cs) -> split_slash (c ++ concat (map (fun n => SLASH :: n) cs)) = c :: cs.
Proof.
  revert c; induction cs as [|d cs IH]; intros c H; cbn [map concat]; [rewrite app_nil_r; apply split_plain, (Forall_inv H)|].
  change ((SLASH :: d) ++ concat (map (fun n => SLASH :: n) cs)) with (47 :: (d ++ concat (map (fun n => SLASH :: n) cs))). rewrite split_app, (split_plain c) by exact (Forall_inv H). rewrite IH by exact (Forall_inv_tail H). reflexivity.
Qed.
Lemma pcomps_render abs cs : Forall (fun c => ~ In 47 c) cs -> pcomps (render abs cs) = filter (fun c => negb (match c with [] => true | _ => is_dot c end)) cs.
Proof.
  intros H. assert (G : pcomps (match cs with [] => [] | c :: cs => c ++ concat (map (fun n => SLASH :: n) cs) end) = filter (fun c => negb (match c with [] => true | _ => is_dot c end)) cs).
  { destruct cs as [|c cs]; [reflexivity|]. unfold pcomps. rewrite split_concat by auto. reflexivity. }
  unfold render. destruct abs; [|exact G]. change (pcomps ([] ++ 47 :: match cs with [] => [] | c :: cs => c ++ concat (map (fun n => SLASH :: n) cs) end) = filter (fun c => negb (match c with [] => true | _ => is_dot c end)) cs).
  rewrite pcomps_app. exact G.
Qed.
Lemma absolute_render abs cs : Forall (fun c => ~ In 47 c) cs -> Forall (fun c => c <> []) cs -> is_absolute (render abs cs) = abs.
Proof.
  intros H Hn. unfold render. destruct abs; [reflexivity|]. destruct cs as [|c cs]; [reflexivity|]. apply Forall_inv in H, Hn. destruct c as [|x c]; [congruence|]. cbn. apply N.eqb_neq. intros ->. apply H. left. reflexivity.
Qed.
Lemma rcomps_case s : exists pre, rcomps s = pre ++ pcomps s /\ (pre = [] \/ pre = [[46]]).
Proof.
  unfold rcomps. destruct (split_slash s) as [|c l] eqn:E.
  - exists []. split; auto. unfold pcomps. rewrite E. reflexivity.
  - destruct (is_dot c) eqn:Ed; [|exists []; auto]. apply str_eqb_spec in Ed. subst c. exists [[46]]. auto.
Qed.
Lemma pcomps_plain s : Forall (fun c => ~ In 47 c /\ c <> [] /\ is_dot c = false) (pcomps s).
Proof.
  apply Forall_forall. intros c H. pose proof (pcomps_no_slash s) as F. rewrite Forall_forall in F. specialize (F c H). unfold pcomps in H. apply filter_In in H as (_ & H).
  destruct c as [|x c]; [discriminate|]. ssplit; auto; [discriminate|]. destruct (is_dot (x :: c)); [discriminate|reflexivity].
Qed.
Lemma filter_all {A} (f : A -> bool) l : Forall (fun x => f x = true) l -> filter f l = l.
Proof. induction 1 as [|x l Hx Hl IH]; [reflexivity|]. cbn [filter]. rewrite Hx, IH. reflexivity. Qed.
Lemma render_place cwd s cs : Forall (fun c => ~ In 47 c /\ c <> [] /\ is_dot c = false) cs -> forall pre, (pre = [] \/ pre = [[46]]) ->
  pcomps (render (is_absolute s) (pre ++ cs)) = cs /\ hstart cwd (render (is_absolute s) (pre ++ cs)) = hstart cwd s.
Proof.
  intros H pre Hp. assert (F1 : Forall (fun c => ~ In 47 c) (pre ++ cs)).
  { apply Forall_app. split; [destruct Hp as [->| ->]; repeat constructor; intros [E|[]]; discriminate|]. eapply Forall_impl; [|exact H]. intros c Hc. apply Hc. }
  assert (F2 : Forall (fun c => c <> []) (pre ++ cs)).
  { apply Forall_app. split; [destruct Hp as [->| ->]; repeat constructor; discriminate|]. eapply Forall_impl; [|exact H]. intros c Hc. apply Hc. }
  split.
  - rewrite pcomps_render by auto. rewrite filter_app. assert (E : filter (fun c => negb (match c with [] => true | _ => is_dot c end)) pre = []) by (destruct Hp as [->| ->]; reflexivity). rewrite E. cbn [app].
    apply filter_all. eapply Forall_impl; [|exact H]. intros c (_ & Hc & Hd). cbv beta. destruct c; [congruence|]. rewrite Hd. reflexivity.
  - unfold hstart. rewrite absolute_render by auto. reflexivity.
Qed.
Lemma extension_place cwd s i n : pcomps s = i ++ [n] -> n <> dotdot -> ~ In 47 (M_Exiso.with_extension n XISO true) ->
  pcomps (dir_with_extension s XISO) = i ++ [n ++ [46; 120; 105; 115; 111; 46; 105; 115; 111]] /\ hstart cwd (dir_with_extension s XISO) = hstart cwd s.
Proof.
  intros E Hn Hs. unfold dir_with_extension. destruct (rcomps_case s) as (pre & Er & Hp). rewrite Er, E, app_assoc, split_last_snoc. pose proof (pcomps_plain s) as F. rewrite E in F. apply Forall_app in F as (Fi & Fn). apply Forall_inv in Fn as (_ & Fn & Fd).
  rewrite Fd, (is_dotdot_false n) by auto. cbn [orb]. rewrite <- app_assoc. change (M_Exiso.with_extension n XISO true) with (n ++ [46; 120; 105; 115; 111; 46; 105; 115; 111]) in *.
  apply render_place; auto. apply Forall_app. split; auto. constructor; [|constructor]. ssplit; auto; [destruct n; discriminate|]. apply is_dot_false. intros Ex. apply (f_equal (@length N)) in Ex. rewrite app_length in Ex. cbn [length] in Ex. lia.
Qed.

Lemma image_path_place cwd a s src o : no_dotdot src ->
  (pcomps src <> [] \/ b_image a <> None \/ match s with Some s => s_output s | None => None end <> None) ->
  image_goes_to cwd (place cwd src) (b_image a) (match s with Some s => s_output s | None => None end) o ->
  no_dotdot (build_image_path a s src) /\ place cwd (build_image_path a s src) = o.
Proof.
  intros Hd Hc. unfold image_goes_to, build_image_path. destruct (b_image a) as [i|]; [intros (H & ->); auto|].
  assert (G : (exists out, match s with Some s => s_output s | None => None end = Some out /\ match s with Some (mkSpec (Some output) _) => pjoin src output | _ => dir_with_extension src XISO end = pjoin src out)
              \/ (match s with Some s => s_output s | None => None end = None /\ match s with Some (mkSpec (Some output) _) => pjoin src output | _ => dir_with_extension src XISO end = dir_with_extension src XISO)).
  { destruct s as [[[out|] rs]|]; [left; exists out; auto|right; auto|right; auto]. }
  destruct G as [(out & E & ->)|(E & ->)]; rewrite E in *.
  - intros (Hf & ->). destruct (is_absolute out) eqn:Ea.
    + unfold pjoin. rewrite Ea. split; [exact Hf|]. unfold place, hstart. rewrite Ea. reflexivity.
    + unfold no_dotdot, place. rewrite pcomps_pjoin, hstart_pjoin by auto. split; [intros Hi; apply in_app_or in Hi as [Hi|Hi]; auto|]. unfold hstart at 2. rewrite Ea, app_assoc. reflexivity.
  - destruct Hc as [Hc|[Hc|Hc]]; try congruence. intros (d & n & Ep & ->). destruct (split_last_case (pcomps src)) as [(E' & _)|(i & c & E' & _)]; [congruence|].
    unfold place in Ep. rewrite E', app_assoc in Ep. apply app_inj_tail in Ep as (<- & ->).
    assert (Hn : n <> dotdot) by (intros ->; apply Hd; rewrite E'; apply in_or_app; right; left; reflexivity).
    assert (Hs : ~ In 47 (M_Exiso.with_extension n XISO true)).
    { pose proof (pcomps_no_slash src) as F. rewrite E' in F. apply Forall_app in F as (_ & F). apply Forall_inv in F. intros Hi. change (In 47 (n ++ [46; 120; 105; 115; 111; 46; 105; 115; 111])) in Hi. apply in_app_or in Hi as [Hi|Hi]; [auto|]. cbn in Hi. intuition discriminate. }
    destruct (extension_place cwd src i n E' Hn Hs) as (P1 & P2). unfold no_dotdot, place. rewrite P1, P2. split; [|rewrite app_assoc; reflexivity].
    intros Hi. apply in_app_or in Hi as [Hi|[Hi|[]]]; [apply Hd; rewrite E'; apply in_or_app; auto|]. apply (f_equal (@length N)) in Hi. rewrite app_length in Hi. cbn [length] in Hi. lia.
Qed.

Section Place.
Context {O : Type} (toml : list byte -> option spec).
Context (mk : host -> list str -> config -> res herr O) (pk : host -> list str -> O -> list byte * res herr unit).
Notation run := (build_image toml mk pk).

Lemma rules_output h cwd a sp q rules s output : build_rules toml h cwd a sp = Ok (rules, s) -> rules <> [] ->
  (forall r, canonicalize h cwd sp = Ok r -> r = q) -> output_field toml h a q output ->
  match s with Some s => s_output s | None => None end = output.
Proof.
  unfold build_rules, output_field. intros H Hne Hq Ho. destruct (b_map a) as [l|].
  - destruct (mapM parse_rule l) as [c|e|e|]; cbn [bind] in H; try discriminate. injection H as <- <-. congruence.
  - cbn [bind] in H. unfold exists_at, read_file in H. destruct (canonicalize h cwd sp) as [r|e|e|] eqn:Ec; try (injection H as <- <-; congruence).
    specialize (Hq r eq_refl). subst r. cbn [bind] in H. destruct (h q) as [[|b]|] eqn:Eq; cbn [bind] in H; try discriminate.
    destruct Ho as [(Ho & _)|(b' & s' & Hb & Ht & ->)]; [congruence|]. assert (b' = b) as -> by congruence. rewrite Ht in H. cbn [ok_or bind] in H.
    destruct (spec_rules s') as [c|e|e|]; cbn [bind] in H; try discriminate. injection H as _ <-. reflexivity.
Qed.

Lemma place_main cwd a sp src q output o w w' : build_paths (w_fs w) cwd a = Ok (sp, src) -> no_dotdot src ->
  (pcomps src <> [] \/ b_image a <> None \/ output <> None) ->
  (forall r, canonicalize (w_fs w) cwd sp = Ok r -> r = q) -> output_field toml (w_fs w) a q output ->
  image_goes_to cwd (place cwd src) (b_image a) output o -> run cwd a w = (w', Ok None) -> writes_only o (w_fs w) (w_fs w').
Proof.
  intros Hb Hd Hc Hq Ho Hi E. apply build_step in E as [(-> & H)|(_ & sp' & src' & rules & s & root & ov & E1 & E2 & E3 & _ & _ & E4)]; [destruct (H None eq_refl); congruence|].
  rewrite Hb in E1. injection E1 as <- <-. pose proof (rules_output _ _ _ _ _ _ _ _ E2 E3 Hq Ho) as <-.
  destruct (image_path_place cwd a s src o Hd Hc Hi) as (P1 & P2). destruct E4 as [(e & _ & _ & H)|(w1 & p & b & r' & E4 & _ & -> & _)]; [destruct (H None eq_refl)|].
  apply open_case in E4 as (_ & F2 & F3 & _). specialize (F3 P1). rewrite P2 in F3. subst p. cbn [after w_fs]. rewrite F2. split; [exists b; apply hset_eq|]. intros z Hz. rewrite !hset_neq by auto. reflexivity.
Qed.

Lemma c81_dir cwd a p output o w w' : no_dotdot (source_of cwd a) -> canonicalize (w_fs w) cwd (source_of cwd a) = Ok p -> w_fs w p = Some HDir ->
  (pcomps (source_of cwd a) <> [] \/ b_image a <> None \/ output <> None) ->
  match b_spec a with Some f => no_dotdot f | None => True end ->
  output_field toml (w_fs w) a (match b_spec a with Some f => place cwd f | None => p ++ [TOML] end) output ->
  image_goes_to cwd p (b_image a) output o -> run cwd a w = (w', Ok None) -> writes_only o (w_fs w) (w_fs w').
Proof.
  intros Hd Hcn Hp Hc Hf Ho Hi E. pose proof (no_dotdot_canonicalize _ _ _ _ Hd Hcn) as Ep.
  apply (place_main cwd a _ _ (match b_spec a with Some f => place cwd f | None => p ++ [TOML] end) output o w w' (dir_paths _ _ a p Hcn Hp) Hd Hc); [|exact Ho|rewrite <- Ep; exact Hi|exact E].
  intros r Hr. destruct (b_spec a) as [f|]; [eapply no_dotdot_canonicalize; eauto|].
  destruct (canonical_walk _ _ _ _ Hcn Hp) as (W & Hn & _). destruct (w_fs w (p ++ [TOML])) as [[|b]|] eqn:Et.
  - assert (Hj : no_dotdot (pjoin (source_of cwd a) TOML)).
    { unfold no_dotdot. rewrite pcomps_pjoin by reflexivity. intros Hj. apply in_app_or in Hj as [Hj|Hj]; [exact (Hd Hj)|]. rewrite (pcomps_name TOML toml_name) in Hj. destruct Hj as [Hj|[]]. discriminate. }
    apply no_dotdot_canonicalize in Hr; auto. rewrite Hr, Ep. unfold place. rewrite pcomps_pjoin, hstart_pjoin by reflexivity. rewrite (pcomps_name TOML toml_name), app_assoc. reflexivity.
  - rewrite (walk_locate _ _ _ _ _ _ W Hn toml_name Et) in Hr. congruence.
  - pose proof (walk_absent _ _ _ _ _ W toml_name Et) as Hx. unfold exists_at in Hx. rewrite Hr in Hx. discriminate.
Qed.

Lemma parent_place cwd s i n : pcomps s = i ++ [n] -> exists t, parent_path s = Some t /\ pcomps t = i /\ hstart cwd t = hstart cwd s.
Proof.
  intros E. unfold parent_path. destruct (rcomps_case s) as (pre & Er & Hp). rewrite Er, E, app_assoc, split_last_snoc. eexists. split; [reflexivity|].
  pose proof (pcomps_plain s) as F. rewrite E in F. apply Forall_app in F as (Fi & _). apply render_place; auto.
Qed.

Lemma c81_file cwd a p f b output o w w' : w_fs w [] = Some HDir -> w_fs w cwd = Some HDir ->
  no_dotdot (source_of cwd a) -> canonicalize (w_fs w) cwd (source_of cwd a) = Ok (p ++ [f]) -> w_fs w (p ++ [f]) = Some (HFile b) ->
  ((2 <= length (pcomps (source_of cwd a)))%nat \/ b_image a <> None \/ output <> None) -> b_spec a = None ->
  output_field toml (w_fs w) a (p ++ [f]) output ->
  image_goes_to cwd p (b_image a) output o -> run cwd a w = (w', Ok None) -> writes_only o (w_fs w) (w_fs w').
Proof.
  intros H0 H1 Hd Hcn Hp Hc Hsp Ho Hi E. pose proof (no_dotdot_canonicalize _ _ _ _ Hd Hcn) as Ep.
  destruct (split_last_case (pcomps (source_of cwd a))) as [(Ec & _)|(i & c & Ec & _)].
  { exfalso. unfold place in Ep. rewrite Ec, app_nil_r in Ep. rewrite Ep in Hp. unfold hstart in Hp. destruct (is_absolute (source_of cwd a)); congruence. }
  unfold place in Ep. rewrite Ec, app_assoc in Ep. apply app_inj_tail in Ep as (-> & <-).
  destruct (parent_place cwd _ i f Ec) as (t & Et & Pt & St).
  assert (Hb : build_paths (w_fs w) cwd a = Ok (source_of cwd a, t)).
  { unfold build_paths. fold (source_of cwd a). unfold is_dir_path. rewrite Hcn, Hp, Et, Hsp. reflexivity. }
  apply (place_main cwd a _ _ ((hstart cwd (source_of cwd a) ++ i) ++ [f]) output o w w' Hb); auto.
  - unfold no_dotdot. rewrite Pt. intros Hx. apply Hd. rewrite Ec. apply in_or_app. auto.
  - rewrite Pt. destruct Hc as [Hc|Hc]; [left|right; exact Hc]. rewrite Ec, app_length in Hc. cbn [length] in Hc. intros ->. cbn [length] in Hc. lia.
  - intros r Hr. congruence.
  - unfold place. rewrite Pt, St. exact Hi.
Qed.
End Place.

(** ** C83: packing an overlay of a host directory *)
Lemma overlay_copies_new tr h ls p o t' : copies (overlay tr (host_fs h ls p)) t' -> (~ leads_to p o \/ h o = None) -> copies (overlay tr (host_fs (hset h o (HFile [])) ls p)) t'.
Proof.
  intros H Ho q b img off Hat. specialize (H q b img off Hat). cbn [overlay copy_in] in *. destruct (trie_get tr q) as [[e|]|e|e|]; try discriminate. cbn [host_fs copy_in] in *. unfold host_copy_file in *.
  rewrite hset_neq; [exact H|]. intros E. destruct Ho as [Ho|Ho]; [apply Ho; exists (m_host_path e); auto|]. rewrite E, Ho in H. discriminate.
Qed.
Lemma c83_lemma fuel m wax ls toml cwd rs cfg out s i w w' p t : mapM parse_rule rs = Ok cfg -> canonicalize (w_fs w) cwd s = Ok p -> hosts (w_fs w) ls p t -> is_fdir t = true -> proper t ->
  no_dotdot i -> (~ leads_to p (place cwd i) \/ w_fs w (place cwd i) = None) ->
  build_image toml (std_overlay fuel m wax ls) (std_overlay_packer fuel m ls) cwd (by_options rs out false (Some s) (Some i)) w = (w', Ok None) ->
  exists keys cl t' img, rules wax cfg keys /\ claims m keys (host_order [] t) cl /\ overlay_shows cl t'
   /\ w_fs w' (place cwd i) = Some (HFile img) /\ (forall q, q <> place cwd i -> w_fs w' q = w_fs w q) /\ packs m t' img.
Proof.
  intros Hm Hc HH HT HP Hi Ho E. assert (Hp : w_fs w p = Some HDir).
  { destruct HH as (H1 & _). specialize (H1 [] t (at_here t)). rewrite app_nil_r in H1. rewrite H1. destruct t; [discriminate|reflexivity]. }
  apply build_step in E as [(-> & H)|(_ & sp & src & rs' & sx & root & tr & E1 & E2 & E3 & E4 & E5 & E6)]; [destruct (H None eq_refl); congruence|].
  rewrite (dir_paths _ _ (by_options rs out false (Some s) (Some i)) p Hc Hp) in E1. injection E1 as <- <-. cbn [source_of b_source by_options] in *. assert (root = p) as -> by congruence.
  unfold build_rules in E2. cbn [b_map by_options] in E2. rewrite Hm in E2. cbn [bind] in E2. injection E2 as <- <-.
  unfold std_overlay in E5. destruct (remap_new fuel m wax (host_fs (w_fs w) ls p) cfg) as [tr'|e|e|] eqn:Er; try discriminate. injection E5 as ->.
  destruct (c43_lemma _ _ _ _ _ _ _ HT HP (hosts_presents _ _ _ _ HH) Er) as (keys & cl & t' & K1 & K2 & K3 & K4 & K5). specialize (K5 (hosts_copies _ _ _ _ HH)).
  destruct E6 as [(e & _ & _ & H)|(w1 & o & b & r' & E6 & E7 & -> & E8)]; [destruct (H None eq_refl)|].
  cbn [build_image_path b_image by_options] in E6. apply open_case in E6 as (_ & F2 & F3 & _). specialize (F3 Hi). subst o. rewrite F2 in E7. unfold std_overlay_packer in E7.
  destruct (create_xdvdfs_image fuel m file_wdev (overlay tr (host_fs (hset (w_fs w) (place cwd i) (HFile [])) ls p)) ([], [])) as [[img evs] r] eqn:Ex. cbn [pack_result] in E7. unfold pack_result in E7. cbn [fst snd] in E7. injection E7 as <- <-.
  exists keys, cl, t', img. cbn [after w_fs]. rewrite F2. ssplit; auto.
  - apply hset_eq.
  - intros q Hq. rewrite !hset_neq by auto. reflexivity.
  - exists (overlay tr (host_fs (hset (w_fs w) (place cwd i) (HFile [])) ls p)), fuel, [], evs. ssplit; [exact K4|apply overlay_copies_new; auto|].
    destruct r as [[]|e|e|]; cbn [bind] in E8; try discriminate. exact Ex.
Qed.
