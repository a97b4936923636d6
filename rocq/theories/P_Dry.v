(** Proofs of C173. *)
From Verif Require Import M_Base M_Util M_Layout M_Read M_Img M_Dev M_Xfs M_Trie M_Remap M_Cli M_Unpack M_Exiso M_Stdfs M_Host M_Build M_Main M_Dry.
From Verif Require Import S_Read S_Img S_Trie S_Remap S_Unpack S_Exiso S_Stdfs S_Build S_Dry.
From Verif Require Import P_Base P_Image P_Overlay P_Stdfs P_Build P_Dump P_Mixed.
From Verif Require Import M_Host M_Build.
From Coq Require Import Init.Byte.
Local Open Scope N_scope.

Lemma slashed_eq p : as_string p = slashed p.
Proof.
  unfold as_string, slashed. destruct p as [|n p]; [reflexivity|]. revert n. induction p as [|n' p IH]; intros n; [cbn; rewrite app_nil_r; reflexivity|].
  change (join_slash (n :: n' :: p)) with (n ++ [SLASH] ++ join_slash (n' :: p)). cbn [map concat app]. f_equal. f_equal. exact (IH n').
Qed.
Lemma line_eq x : dry_line x = arrow x.
Proof. unfold dry_line, arrow. rewrite !slashed_eq. reflexivity. Qed.

Lemma dump_loop_more tr : forall k k' qs out l, dump_loop k tr qs out = Ok l -> (k <= k')%nat -> dump_loop k' tr qs out = Ok l.
Proof.
  intros k. induction k as [|k IH]; intros k' qs out l E Hk; destruct qs as [|p qs]; try (destruct k'; exact E); [discriminate|].
  destruct k' as [|k']; [inversion Hk|]. cbn [dump_loop] in *. destruct (lookup_subdir tr p) as [o| | |]; cbn [bind] in *; try discriminate.
  destruct (unwrap o) as [ls| | |]; cbn [bind] in *; try discriminate.
  destruct (fold_left _ _ _) as [qs' out'] eqn:Ef. apply IH; [exact E|apply le_S_n; exact Hk].
Qed.
Lemma dump_more k k' tr l : dump k tr = Ok l -> (k <= k')%nat -> dump k' tr = Ok l.
Proof. apply dump_loop_more. Qed.

Lemma rules_fun wax cfg k k' : rules wax cfg k -> rules wax cfg k' -> k = k'.
Proof. intros H H'. apply rules_compile in H, H'. congruence. Qed.

Lemma told m keys t cl t' out : is_fdir t = true -> proper t -> claims m keys (host_order [] t) cl -> overlay_shows cl t' ->
  (forall h q, In (h, q) out <-> q <> [] /\ open_to cl q /\ exists s, claimant q cl = Some (h, s, q)) -> tells_files out t t'.
Proof.
  intros HT HP HC (_ & _ & HF & _) HO q b. rewrite HF. split.
  - intros (Hq & Ho & h & Hn). unfold node_at in Hn. destruct (claimant q cl) as [[[h' s] r]|] eqn:Ec; [|discriminate].
    destruct (path_eq_dec r q) as [->|]; [|discriminate]. destruct s as [b'|]; [|discriminate]. injection Hn as <- <-. exists h'. split; [apply HO; eauto|].
    apply claimant_in in Ec as (Hin & _). apply (claims_in _ _ _ _ HC) in Hin as (Hin & _). apply (order_at t t [] h' _ (at_here t)) in Hin. apply Hin.
  - intros (h & Hin & Ha). apply HO in Hin as (Hq & Ho & s & Ec). ssplit; auto. exists h. unfold node_at. rewrite Ec. destruct (path_eq_dec q q) as [_|]; [|congruence].
    apply claimant_in in Ec as (Hin & _). apply (claims_in _ _ _ _ HC) in Hin as (Hin & _). apply (order_at t t [] h _ (at_here t)) in Hin as (Hin & _).
    assert (s = FFile b) as -> by (eapply at_fun; eauto). reflexivity.
Qed.

Section Dry.
Context (H : list byte -> list byte) (mm : build) (fuel0 : nat) (dup : nat -> bool) (pk : packer).
Context (fuel : nat) (m : build) (wax : str -> option glob) (ls : lister) (toml : list byte -> option spec) (cwd : list str).
Notation run d a := (main H mm fuel0 dup cwd pk (Core (inl (OtherCmd (build_effect fuel d m wax ls toml cwd a))))).

Lemma build_ok d rs out s i w w' o : run d (by_options rs out false s i) w = mkProcess w' o None (Some 0) ->
  build_image toml (std_overlay fuel m wax ls) (std_overlay_packer fuel m ls) cwd (by_options rs out false s i) w = (w', Ok None) /\ o = [].
Proof.
  cbn [main run_command]. unfold build_effect. destruct (build_image _ _ _ _ _ w) as [w1 [[tr|]|e|e|]] eqn:E; cbn [finish_with]; intros X; try discriminate.
  - exfalso. apply build_step in E as [(_ & K)|(_ & sp & src & rl & sx & root & tr' & _ & _ & _ & _ & _ & [(e & _ & _ & K)|(w2 & p & b & r & _ & _ & _ & K)])].
    + destruct (K _ eq_refl). discriminate.
    + destruct (K _ eq_refl).
    + destruct r; discriminate.
  - injection X as <- <-. auto.
Qed.

Lemma c173_lemma rs cfg out s i w w' p t d o : mapM parse_rule rs = Ok cfg -> canonicalize (w_fs w) cwd s = Ok p -> hosts (w_fs w) ls p t -> is_fdir t = true -> proper t ->
  no_dotdot i -> (~ leads_to p (place cwd i) \/ w_fs w (place cwd i) = None) ->
  run d (by_options rs out false (Some s) (Some i)) w = mkProcess w' o None (Some 0) ->
  exists t' img told, w_fs w' (place cwd i) = Some (HFile img) /\ packs m t' img /\ tells_files told t t'
   /\ returns (fun d => run d (by_options rs out true (Some s) (Some i)) w) (mkProcess w (map arrow told) None (Some 0)).
Proof.
  intros Hm Hc HH HT HP Hi Ho E. apply build_ok in E as (E & _).
  destruct (c83_lemma _ _ _ _ _ _ _ _ _ _ _ _ _ _ _ Hm Hc HH HT HP Hi Ho E) as (keys & cl & t' & img & K1 & K2 & K3 & K4 & _ & K6).
  assert (Hp : w_fs w p = Some HDir).
  { destruct HH as (H1 & _). specialize (H1 [] t (at_here t)). rewrite app_nil_r in H1. rewrite H1. destruct t; [discriminate|reflexivity]. }
  apply build_step in E as [(_ & K)|(_ & sp & src & rl & sx & root & tr & E1 & E2 & E3 & E4 & E5 & _)]; [destruct (K None eq_refl); congruence|].
  assert (D : forall d0, build_image toml (std_overlay fuel m wax ls) (std_overlay_packer fuel m ls) cwd (by_options rs out true (Some s) (Some i)) w = (w, Ok (Some tr)) ->
     run d0 (by_options rs out true (Some s) (Some i)) w = match dump d0 tr with Ok l => mkProcess w (map dry_line l) None (Some 0)
       | Err _ => mkProcess w [] (Some (UHost HPack)) (Some 1) | Panic _ => mkProcess w [] None (Some 101) | OutOfFuel => mkProcess w [] None None end).
  { intros d0 X. cbn [main run_command]. unfold build_effect. rewrite X. destruct (dump d0 tr); reflexivity. }
  assert (X : build_image toml (std_overlay fuel m wax ls) (std_overlay_packer fuel m ls) cwd (by_options rs out true (Some s) (Some i)) w = (w, Ok (Some tr))).
  { unfold build_image, hbind, hres. change (build_paths (w_fs w) cwd (by_options rs out true (Some s) (Some i))) with (build_paths (w_fs w) cwd (by_options rs out false (Some s) (Some i))).
    rewrite E1. cbn [bind]. change (build_rules toml (w_fs w) cwd (by_options rs out true (Some s) (Some i)) sp) with (build_rules toml (w_fs w) cwd (by_options rs out false (Some s) (Some i)) sp).
    rewrite E2. cbn [bind]. destruct rl as [|r0 rl]; [congruence|]. rewrite E4. cbn [bind]. rewrite E5. reflexivity. }
  rewrite (dir_paths _ _ (by_options rs out false (Some s) (Some i)) p Hc Hp) in E1. injection E1 as <- <-. cbn [source_of b_source by_options] in *. assert (root = p) as -> by congruence.
  unfold build_rules in E2. cbn [b_map by_options] in E2. rewrite Hm in E2. cbn [bind] in E2. injection E2 as <- <-.
  unfold std_overlay in E5. destruct (remap_new fuel m wax (host_fs (w_fs w) ls p) cfg) as [tr'|e|e|] eqn:Er; try discriminate. injection E5 as ->.
  destruct (c65_lemma _ _ _ _ _ _ _ HT HP (hosts_presents _ _ _ _ HH) Er) as (keys' & cl' & k & R1 & R2 & R3).
  assert (keys' = keys) as -> by (eapply rules_fun; eauto). assert (cl' = cl) as -> by (eapply claims_fun; eauto).
  destruct (R3 k (le_n k)) as (l & El & Hl). exists t', img, l. ssplit; auto; [eapply told; eauto|].
  exists k. intros d0 Hd. rewrite (D _ X). rewrite (dump_more _ _ _ _ El Hd). f_equal. apply map_ext. apply line_eq.
Qed.
End Dry.

Lemma c173_unchanged_lemma H mm fuel0 dup pk fuel m wax ls toml cwd d a w : b_dry_run a = true ->
  p_world (main H mm fuel0 dup cwd pk (Core (inl (OtherCmd (build_effect fuel d m wax ls toml cwd a)))) w) = w.
Proof.
  intros Hd. cbn [main run_command]. unfold build_effect. destruct (build_image _ _ _ _ a w) as [w1 r] eqn:E.
  apply build_step in E as [(-> & _)|(K & _)]; [|congruence]. destruct r as [[tr|]|e|e|]; try reflexivity. destruct (dump d tr); reflexivity.
Qed.
