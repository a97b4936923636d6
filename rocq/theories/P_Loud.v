(** Proofs of C175. *)
From Verif Require Import M_Base M_Util M_Layout M_Read M_Img M_Cli M_Host M_Unpack M_Loud.
From Verif Require Import S_Codec S_Read S_Img S_Check S_Cli S_Unpack S_Loud.
From Verif Require Import P_Base P_Find P_Src P_Check P_Cli P_Mono P_Host P_Path P_Unpack.
From Coq Require Import Init.Byte Lia Strings.String.
From Coq Require Import List.
Local Close Scope string_scope.
Local Open Scope N_scope.

(** ** The loop *)
Lemma loud_same cwd file base dest : forall tree w out,
  (fst (fst (loud_loop cwd file base dest tree w out)), snd (loud_loop cwd file base dest tree w out)) = copyout_loop cwd file base dest tree w.
Proof.
  induction tree as [|[dir e] tree IH]; intros w out; [reflexivity|]. cbn [loud_loop copyout_loop]. cbv zeta. unfold hbind.
  destruct (create_dir_all cwd _ w) as [w1 [u|x|x|]]; try reflexivity.
  set (act := if is_directory (d_dirent (e_node e)) then _ else _). destruct (act w1) as [w2 [u2|x|x|]]; try reflexivity. apply IH.
Qed.
(** All of the entries, or those up to the one that ended it. *)
Lemma loud_lines cwd file base dest : forall tree w out, let '((w', out'), r) := loud_loop cwd file base dest tree w out in
  (r = Ok tt /\ out' = out ++ map (extract_line dest) tree)
  \/ exists t1 x t2 w1, r <> Ok tt /\ tree = t1 ++ x :: t2 /\ out' = out ++ map (extract_line dest) (t1 ++ [x])
     /\ copyout_loop cwd file base dest t1 w = (w1, Ok tt) /\ copyout_loop cwd file base dest [x] w1 = (w', r).
Proof.
  induction tree as [|[dir e] tree IH]; intros w out; [left; cbn; rewrite app_nil_r; auto|]. cbn [loud_loop]. cbv zeta.
  destruct (create_dir_all cwd (pjoin dest (trim_start dir)) w) as [w1 [u|x|x|]] eqn:E1.
  2-4: right; exists [], (dir, e), tree, w; cbn [copyout_loop app map]; cbv zeta; unfold hbind; rewrite E1; ssplit; auto; discriminate.
  set (act := if is_directory (d_dirent (e_node e)) then _ else _). destruct (act w1) as [w2 [u2|x|x|]] eqn:E2; subst act.
  2-4: right; exists [], (dir, e), tree, w; cbn [copyout_loop app map]; cbv zeta; unfold hbind; rewrite E1, E2; ssplit; auto; discriminate.
  specialize (IH w2 (out ++ [extract_line dest (dir, e)])). destruct (loud_loop cwd file base dest tree w2 _) as [[w' out'] r].
  destruct IH as [(H1 & ->)|(t1 & x & t2 & w3 & H1 & -> & -> & H4 & H5)].
  - left. split; [exact H1|]. rewrite <- app_assoc. reflexivity.
  - right. exists ((dir, e) :: t1), x, t2, w3. ssplit; auto.
    + rewrite <- app_assoc. reflexivity.
    + cbn [copyout_loop]. cbv zeta. unfold hbind. rewrite E1, E2. exact H4.
Qed.

(** ** The command *)
Lemma c175_same_lemma fuel cwd image_path file target w :
  (fst (fst (loud_unpack fuel cwd image_path file target w)), snd (loud_unpack fuel cwd image_path file target w)) = cmd_unpack fuel cwd image_path file target w.
Proof.
  unfold loud_unpack, cmd_unpack, copyout_directory, uread. destruct (unpack_target image_path target) as [dest|x|x|]; try reflexivity. cbn [bind].
  destruct (offset_wrapper_new (file_dev file)) as [base|x|x|]; try reflexivity. cbn [bind map_err].
  destruct (read_volume (offset_dev (file_dev file) base)) as [v|x|x|]; try reflexivity. cbn [bind map_err].
  destruct (file_tree fuel (offset_dev (file_dev file) base) (v_root v)) as [tree|x|x|]; try reflexivity. cbn [bind map_err].
  rewrite <- (loud_same cwd file base dest tree w []). destruct (loud_loop cwd file base dest tree w []) as [[w' out] r]. reflexivity.
Qed.

(** ** The text *)
Lemma pjoin_plain a b : plainly a -> is_absolute b = false -> pjoin a b = a ++ 47 :: b.
Proof.
  intros (d & c & -> & Hc) Hb. destruct (pjoin_cases (d ++ [c]) b Hb) as [(E & _)|[(a' & E & _)|(_ & E)]]; [destruct d; discriminate| |exact E].
  apply app_inj_tail in E as (_ & E). congruence.
Qed.
Lemma name_relative n : unix_name n -> is_absolute n = false.
Proof. intros (H1 & _ & _ & H2 & _). destruct n as [|c n]; [congruence|]. cbn. apply N.eqb_neq. intros ->. apply H2. left. reflexivity. Qed.
Lemma plainly_app a n : unix_name n -> plainly (a ++ n).
Proof.
  intros (H1 & _ & _ & H2 & _). destruct (exists_last H1) as (n' & c & ->). exists (a ++ n'), c. rewrite app_assoc. split; [reflexivity|]. intros ->. apply H2. apply in_or_app. right. left. reflexivity.
Qed.
Lemma join_below dest q n : plainly dest -> Forall unix_name (q ++ [n]) -> pjoin (pjoin dest (trim_start (S_Check.slashed q))) n = below dest (q ++ [n]).
Proof.
  intros Hd HU. apply Forall_app in HU as (Uq & Un). inversion Un as [|? ? Hn _]; subst. unfold below. rewrite map_app, concat_app. cbn [map concat]. rewrite app_nil_r.
  destruct q as [|s q].
  - cbn [S_Check.slashed map concat trim_start app]. rewrite (pjoin_plain dest [] Hd eq_refl). unfold pjoin. rewrite (name_relative _ Hn). rewrite rev_app_distr. cbn [rev app].
    change (47 =? SLASH) with true. cbv iota. rewrite <- app_assoc. reflexivity.
  - inversion Uq as [|? ? Us Uq']; subst.
    assert (E : trim_start (S_Check.slashed (s :: q)) = s ++ S_Check.slashed q).
    { unfold S_Check.slashed. cbn [map concat app]. cbn [trim_start]. change (47 =? SLASH) with true. cbv iota. destruct s as [|c s]; [destruct Us; congruence|]. cbn [app].
      apply trim_id. intros ->. destruct Us as (_ & _ & _ & X & _). apply X. left. reflexivity. }
    rewrite E. assert (A : is_absolute (s ++ S_Check.slashed q) = false).
    { pose proof (name_relative _ Us) as X. destruct s as [|c s]; [destruct Us; congruence|exact X]. }
    rewrite (pjoin_plain dest _ Hd A).
    assert (Pl : plainly (dest ++ 47 :: s ++ S_Check.slashed q)).
    { destruct (list_eq_dec (list_eq_dec N.eq_dec) q []) as [->|Hq].
      - cbn. rewrite app_nil_r. change (47 :: s) with ([47] ++ s). rewrite app_assoc. apply plainly_app. exact Us.
      - destruct (exists_last Hq) as (q' & z & ->). apply Forall_app in Uq' as (_ & Uz). inversion Uz as [|? ? Hz _]; subst.
        unfold S_Check.slashed. rewrite map_app, concat_app. cbn [map concat]. rewrite app_nil_r.
        replace (dest ++ 47 :: s ++ concat (map (fun n0 => 47 :: n0) q') ++ 47 :: z) with ((dest ++ 47 :: s ++ concat (map (fun n0 => 47 :: n0) q') ++ [47]) ++ z).
        + apply plainly_app. exact Hz.
        + rewrite <- !app_assoc. cbn [app]. rewrite <- !app_assoc. reflexivity. }
    rewrite (pjoin_plain _ n Pl (name_relative _ Hn)). unfold S_Check.slashed. cbn [map concat app]. rewrite <- !app_assoc. cbn [app]. rewrite <- !app_assoc. reflexivity.
Qed.

Lemma lines_nodes d r t dest : plainly dest -> unix_tree t -> forall out ns, (forall p t', In (p, t') ns -> at_path t p t') -> Forall2 (node_ok d r []) out ns ->
  map (extract_line dest) out = map (extracting dest) ns.
Proof.
  intros Hd HU out ns HI HF. induction HF as [|[dir e] [p t'] out ns (q & E1 & E2 & (E3 & _) & _) HF IH]; [reflexivity|]. cbn [fst snd app] in *. cbn [map].
  rewrite IH by (intros p' t'' Hi; apply HI; right; exact Hi). f_equal.
  assert (U : Forall unix_name p) by (eapply unix_paths; [exact HU|apply HI; left; reflexivity]).
  unfold extract_line, extracting, entry_path. cbn [fst snd]. subst p dir. rewrite join_below by assumption. change (is_directory (d_dirent (e_node e))) with (is_dir e).
  rewrite E3. destruct t'; reflexivity.
Qed.

Lemma c175_lemma cwd image_path file dest t w : is_image file t -> unix_tree t -> ready_for cwd dest t w -> plainly dest ->
  exists w' ns, returns (fun fuel => loud_unpack fuel cwd image_path file (Some dest) w) ((w', map (extracting dest) ns), Ok tt)
   /\ enumerates t ns /\ restored (place cwd dest) t (w_fs w) (w_fs w').
Proof.
  intros HI HU HW Hd. destruct (c48_lemma cwd image_path file dest t w HI HU HW) as (w' & (n1 & R) & W).
  destruct HI as (d & r & Ho & (v & Hv & ->) & Ht & HC). pose proof (image_lawful _ _ Ho) as HL. destruct (open_image_base _ _ Ho) as (base & Hb & Ed).
  destruct (unpack_list d t (v_root v) HL Ht HC) as (out & ns & (n2 & O) & HE & HF). exists w', ns. ssplit; auto.
  exists (Nat.max n1 n2). intros k Hk. specialize (R k ltac:(lia)). rewrite <- c175_same_lemma in R. unfold loud_unpack in *. cbn [unpack_target bind] in *.
  rewrite Hb in *. cbn [map_err bind] in *. rewrite <- Ed in *. rewrite Hv in *. cbn [map_err bind] in *. rewrite (O k) in * by lia. cbn [map_err bind] in *.
  pose proof (loud_lines cwd file base dest out w []) as L. destruct (loud_loop cwd file base dest out w []) as [[w2 out2] r2]. cbn [fst snd] in *. injection R as -> R.
  destruct r2 as [[]|x|x|]; try discriminate. destruct L as [(_ & ->)|(t1 & x & t2 & w1 & L & _)]; [|congruence]. cbn [app].
  rewrite (lines_nodes d (v_root v) t dest Hd HU out ns (fun p t' Hi => proj2 (proj1 (proj2 HE p t') Hi)) HF). reflexivity.
Qed.

Lemma c175_failure_lemma fuel cwd image_path file dest w w' lines e : loud_unpack fuel cwd image_path file (Some dest) w = ((w', lines), Err (UHost e)) ->
  exists base t1 x w1, lines = map (extract_line dest) (t1 ++ [x]) /\ copyout_loop cwd file base dest t1 w = (w1, Ok tt) /\ copyout_loop cwd file base dest [x] w1 = (w', Err e).
Proof.
  unfold loud_unpack. cbn [unpack_target bind]. destruct (offset_wrapper_new (file_dev file)) as [base|y|y|]; try discriminate. cbn [bind map_err].
  destruct (read_volume (offset_dev (file_dev file) base)) as [v|y|y|]; try discriminate. cbn [bind map_err].
  destruct (file_tree fuel (offset_dev (file_dev file) base) (v_root v)) as [tree|y|y|]; try discriminate. cbn [bind map_err].
  pose proof (loud_lines cwd file base dest tree w []) as L. destruct (loud_loop cwd file base dest tree w []) as [[w2 out2] r2]. intros H. injection H as -> -> H.
  destruct r2 as [[]|y|y|]; try discriminate. injection H as ->. destruct L as [(L & _)|(t1 & x & t2 & w1 & _ & _ & L1 & L2 & L3)]; [discriminate|].
  exists base, t1, x, w1. auto.
Qed.
