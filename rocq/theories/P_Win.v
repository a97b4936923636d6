(** Proofs about unpacking on Windows (C157). *)
From Verif Require Import M_Base M_Util M_Layout M_Read M_Img M_Cli M_Win S_Codec S_Read S_Img S_Check S_Cli S_Win.
From Verif Require Import P_Base P_Find P_Src P_Check P_Cli P_Mono P_Unpack.
From Coq Require Import Init.Byte Lia Permutation.
Local Open Scope N_scope.

Lemma wsep_spec c : is_wsep c = true <-> c = 47 \/ c = 92.
Proof. unfold is_wsep. rewrite Bool.orb_true_iff, !N.eqb_eq. reflexivity. Qed.
Lemma wsplit_some s : exists p ps, wsplit s = p :: ps.
Proof. induction s as [|c s (p & ps & E)]; cbn; [eauto|]. destruct (is_wsep c); [eauto|]. rewrite E. eauto. Qed.
Lemma wsplit_sep a c b : is_wsep c = true -> wsplit (a ++ c :: b) = wsplit a ++ wsplit b.
Proof.
  intros Hc. induction a as [|x a IH]; cbn [app wsplit]; [rewrite Hc; reflexivity|]. rewrite IH. destruct (is_wsep x); [reflexivity|]. destruct (wsplit_some a) as (p & ps & ->). reflexivity.
Qed.
Lemma wsplit_plain n : (forall c, In c n -> is_wsep c = false) -> wsplit n = [n].
Proof. induction n as [|c n IH]; intros H; [reflexivity|]. cbn [wsplit]. rewrite (H c) by (left; reflexivity). rewrite IH; [reflexivity|]. intros x Hx. apply H. right. exact Hx. Qed.

(** What follows a path that is neither empty nor a bare drive leaves its beginning. *)
Lemma prefix_app a c : a <> [] -> prefix_of a <> Net -> (forall x, a = [x] -> prefix_of (x :: c) = NoPrefix) -> prefix_of (a ++ c) = prefix_of a.
Proof. intros Ha Hn H. destruct a as [|x [|y a]]; [congruence|apply (H x eq_refl)|reflexivity]. Qed.
Lemma behind_app a c : a <> [] -> prefix_of (a ++ c) = prefix_of a -> behind (a ++ c) = behind a ++ c.
Proof. intros Ha H. unfold behind. rewrite H. destruct (prefix_of a) eqn:E; auto. destruct a as [|x [|y a]]; [congruence|discriminate|reflexivity]. Qed.

Definition wstart (env : wenv) (v : option N) (s : str) : list str := if starts_sep s then [] else match v with Some c => w_cwd env c | None => [] end.
Lemma not_net a : on_disk a -> prefix_of a <> Net.
Proof.
  intros H. destruct a as [|x [|y a]]; try discriminate. cbn [prefix_of]. destruct (is_wsep x && is_wsep y) eqn:E; [|destruct (is_letter x && (y =? 58)); discriminate].
  apply Bool.andb_true_iff in E as (E1 & E2). apply wsep_spec in E1, E2. destruct (H x y a eq_refl). auto.
Qed.

Lemma join_relative env a b : prefix_of a <> Net -> prefix_of b = NoPrefix -> starts_sep b = false ->
  prefix_of (wjoin a b) <> Net /\ wplace env (wjoin a b) = (fst (wplace env a), fold_left wstep (wsplit b) (snd (wplace env a))).
Proof.
  intros Ha Hb Hs. unfold wjoin. rewrite Hb, Hs. destruct a as [|a0 a']; [|set (a := a0 :: a') in *; assert (Hne : a <> []) by discriminate].
  - split; [congruence|]. unfold wplace, behind. rewrite Hb. cbn [prefix_of starts_sep fst snd wsplit fold_left wstep]. rewrite Hs. reflexivity.
  - destruct (ends_sep a || _) eqn:E.
    + assert (K : forall x, a = [x] -> prefix_of (x :: b) = NoPrefix).
      { intros x Ex. destruct b as [|y b]; [reflexivity|]. unfold prefix_of. cbn [starts_sep] in Hs. rewrite Hs, Bool.andb_false_r.
        rewrite Ex in E. cbn [ends_sep rev app starts_sep prefix_of] in E. rewrite Bool.orb_false_r in E. unfold ends_sep in E. cbn [rev app starts_sep] in E. apply wsep_spec in E. destruct E as [->| ->]; reflexivity. }
      assert (P : prefix_of (a ++ b) = prefix_of a) by (apply prefix_app; auto). split; [congruence|].
      unfold wplace. rewrite P, (behind_app a b Hne P). cbn [fst snd].
      apply Bool.orb_true_iff in E as [E|E].
      * unfold ends_sep in E. destruct (rev a) as [|c r] eqn:Er; [discriminate|]. cbn [starts_sep] in E. assert (Ea : a = rev r ++ [c]) by (rewrite <- (rev_involutive a), Er; reflexivity).
        assert (Hbeh : exists x, behind a = x ++ [c]).
        { unfold behind. destruct (prefix_of a) eqn:Ep; [eauto| |congruence]. rewrite Ea in *. destruct (rev r) as [|x [|y l]]; cbn [app] in Ep |- *; [discriminate| |eexists; cbn [skipn]; reflexivity].
          exfalso. cbn [prefix_of] in Ep. rewrite E, Bool.andb_true_r in Ep. destruct (is_wsep x); [discriminate|]. destruct (is_letter x && (c =? 58)) eqn:El; [|discriminate].
          apply Bool.andb_true_iff in El as (_ & El). apply N.eqb_eq in El. subst c. discriminate. }
        destruct Hbeh as (x & ->). rewrite <- app_assoc. cbn [app]. rewrite (wsplit_sep x c b E), (wsplit_sep x c [] E), !fold_left_app. cbn [wsplit fold_left wstep].
        destruct x as [|x0 x]; cbn [app starts_sep]; rewrite ?E; reflexivity.
      * destruct (prefix_of a) as [|dc|] eqn:Ep; try discriminate. destruct (behind a) as [|? ?]; [|discriminate]. cbn [app starts_sep]. rewrite Hs. reflexivity.
    + apply Bool.orb_false_iff in E as (E & E2).
      assert (K : forall x, a = [x] -> prefix_of (x :: 92 :: b) = NoPrefix).
      { intros x Ex. unfold prefix_of. rewrite Ex in E. unfold ends_sep in E. cbn [rev app starts_sep] in E. rewrite E. cbn [andb]. rewrite Bool.andb_false_r. reflexivity. }
      cbn [app]. assert (P : prefix_of (a ++ 92 :: b) = prefix_of a) by (apply prefix_app; auto). split; [congruence|].
      unfold wplace. rewrite P, (behind_app a _ Hne P). cbn [fst snd]. rewrite wsplit_sep by reflexivity. rewrite fold_left_app. f_equal. f_equal.
      assert (Hb2 : behind a <> []).
      { unfold behind in *. destruct (prefix_of a) as [|dc|] eqn:Ep; try exact Hne. destruct (skipn 2 a); [discriminate|discriminate]. }
      destruct (behind a) as [|y l]; [congruence|]. reflexivity.
Qed.

Lemma win_plain n : win_name n -> forall c, In c n -> is_wsep c = false.
Proof. intros (_ & _ & _ & A & B & _) c Hc. destruct (is_wsep c) eqn:E; auto. apply wsep_spec in E as [->| ->]; contradiction. Qed.
Lemma win_step at_ n : win_name n -> wstep at_ n = at_ ++ [n].
Proof.
  intros (A & B & C & _). unfold wstep. destruct n as [|c n]; [congruence|]. destruct (str_eqb (c :: n) [46]) eqn:E; [apply str_eqb_spec in E; congruence|].
  destruct (str_eqb (c :: n) [46; 46]) eqn:E'; [apply str_eqb_spec in E'; congruence|]. reflexivity.
Qed.
Lemma win_prefix n s : win_name n -> prefix_of (n ++ s) = NoPrefix \/ exists c, n = [c].
Proof.
  intros H. pose proof (win_plain n H) as HP. destruct H as (A & _ & _ & _ & _ & D). destruct n as [|x [|y n]]; [congruence|eauto|]. left. cbn [app prefix_of]. rewrite (HP x) by (left; reflexivity). cbn [andb].
  destruct (N.eqb_spec y 58) as [->|]; [exfalso; apply D; right; left; reflexivity|]. rewrite Bool.andb_false_r. reflexivity.
Qed.
Lemma name_join n : win_name n -> prefix_of n = NoPrefix /\ starts_sep n = false /\ wsplit n = [n].
Proof.
  intros H. pose proof (win_plain n H) as HP. split; [|split; [|apply wsplit_plain; exact HP]].
  - destruct (win_prefix n [] H) as [E|(c & ->)]; [rewrite app_nil_r in E; exact E|reflexivity].
  - destruct n; [reflexivity|]. apply HP. left. reflexivity.
Qed.
Lemma dir_join q : Forall win_name q -> let s := trim_start (slashed q) in
  prefix_of s = NoPrefix /\ starts_sep s = false /\ forall at_, fold_left wstep (wsplit s) at_ = at_ ++ q.
Proof.
  intros HF. destruct q as [|n q]; cbv zeta; [cbn; repeat split; intros; rewrite app_nil_r; reflexivity|]. inversion HF as [|? ? Hn Hq]; subst.
  assert (Es : trim_start (slashed (n :: q)) = n ++ slashed q).
  { unfold slashed. cbn [map concat app trim_start]. rewrite N.eqb_refl. destruct n as [|c n]; [destruct Hn as (A & _); congruence|]. cbn [app trim_start].
    destruct (N.eqb_spec c SLASH) as [->|]; [|reflexivity]. exfalso. apply (proj1 (proj2 (proj2 (proj2 Hn)))). left. reflexivity. }
  rewrite Es. split; [|split].
  - destruct (win_prefix n (slashed q) Hn) as [E|(c & ->)]; [exact E|]. destruct q as [|m q]; [reflexivity|]. unfold slashed. cbn [map concat app prefix_of].
    pose proof (win_plain [c] Hn c (or_introl eq_refl)) as Hc. rewrite Hc. cbn [andb]. rewrite Bool.andb_false_r. reflexivity.
  - pose proof (win_plain n Hn) as HP. destruct n; [destruct Hn as (A & _); congruence|]. apply HP. left. reflexivity.
  - clear Es HF. revert n Hn. induction q as [|m q IH]; intros n Hn at_.
    + unfold slashed. cbn [map concat]. rewrite app_nil_r, (wsplit_plain n (win_plain n Hn)). cbn [fold_left]. apply win_step. exact Hn.
    + inversion Hq as [|? ? Hm Hq']; subst. change (slashed (m :: q)) with (47 :: m ++ slashed q). rewrite wsplit_sep by reflexivity. rewrite fold_left_app, (wsplit_plain n (win_plain n Hn)). cbn [fold_left].
      rewrite (win_step _ n Hn), (IH Hq' m Hm). rewrite <- app_assoc. reflexivity.
Qed.

Lemma win_target_place env dest q e : on_disk dest -> Forall win_name q -> win_name (name_str e) ->
  wplace env (win_target dest (slashed q, e)) = (fst (wplace env dest), snd (wplace env dest) ++ q ++ [name_str e]).
Proof.
  intros Hd Hq Hn. unfold win_target. cbn [fst snd]. destruct (dir_join q Hq) as (A & B & C). destruct (join_relative env dest _ (not_net _ Hd) A B) as (J1 & J2).
  destruct (name_join _ Hn) as (D & E & F). destruct (join_relative env _ _ J1 D E) as (_ & J3). rewrite J3, J2, F. cbn [fst snd fold_left]. rewrite C, (win_step _ _ Hn), <- app_assoc. reflexivity.
Qed.

Lemma win_paths t p t' : win_tree t -> at_path t p t' -> Forall win_name p.
Proof.
  intros HU H. induction H as [t|cs n t p t' Hin Hat IH]; constructor.
  - apply (HU [] cs (at_here _)). apply (in_map fst) in Hin. exact Hin.
  - apply IH. intros q cs' Hq. apply (HU (n :: q)). eapply at_child; eauto.
Qed.
Lemma c157_lemma env fuel file dest t d v tree : is_image file t -> win_tree t -> on_disk dest ->
  open_image file = Ok d -> read_volume d = Ok v -> file_tree fuel d (v_root v) = Ok tree ->
  exists ns, enumerates t ns /\ Forall2 (fun x y => wplace env (win_target dest x) = (fst (wplace env dest), snd (wplace env dest) ++ fst y)) tree ns.
Proof.
  intros (d' & r & Ho & (v' & Hv & ->) & Ht & HC) HW Hd Ho' Hv' Et. rewrite Ho in Ho'. injection Ho' as <-. rewrite Hv in Hv'. injection Hv' as <-. pose proof (image_lawful _ _ Ho) as HL.
  destruct (unpack_list d' t (v_root v') HL Ht HC) as (out & ns & (n & O) & HE & HF).
  pose proof (file_tree_mono _ _ (dle_refl d') fuel (Nat.max n fuel) _ _ ltac:(lia) Et) as M. rewrite O in M by lia. injection M as <-.
  exists ns. split; [exact HE|]. destruct HE as (_ & HE). assert (HI : forall p t', In (p, t') ns -> at_path t p t') by (intros p t' Hi; apply HE; exact Hi). clear -HF HI HW Hd.
  induction HF as [|[dir e] [p t'] out ns (q & E1 & E2 & E3 & E4) HF IH]; constructor; [|apply IH; intros p' t'' Hi; apply HI; right; exact Hi]. cbn [fst snd app] in *.
  pose proof (win_paths t p t' HW (HI p t' (or_introl eq_refl))) as HP. subst p dir. apply Forall_app in HP as (Hq & Hn). inversion Hn; subst. apply win_target_place; auto.
Qed.
