(** Lemmas about host paths and file system calls. *)
From Verif Require Import M_Base M_Util M_Layout M_Read M_Img M_Host M_Unpack S_Codec S_Read S_Img S_Check S_Cli S_Unpack P_Base P_Dev P_Check.
From Coq Require Import Init.Byte Lia.
Local Open Scope N_scope.

(** ** Strings *)
Notation dotdot := ([46; 46] : str).
Lemma split_nonempty s : split_slash s <> [].
Proof. destruct s as [|c s]; [discriminate|]. cbn [split_slash]. destruct (c =? SLASH); [discriminate|]. destruct (split_slash s); discriminate. Qed.
Lemma split_app a b : split_slash (a ++ 47 :: b) = split_slash a ++ split_slash b.
Proof.
  induction a as [|c a IH]; [reflexivity|]. cbn [app split_slash]. rewrite IH. destruct (c =? SLASH); [reflexivity|].
  pose proof (split_nonempty a). destruct (split_slash a); [congruence|reflexivity].
Qed.
Lemma pcomps_app a b : pcomps (a ++ 47 :: b) = pcomps a ++ pcomps b.
Proof. unfold pcomps. rewrite split_app, filter_app. reflexivity. Qed.

Lemma pjoin_cases a b : is_absolute b = false ->
  (a = [] /\ pjoin a b = b) \/ (exists a', a = a' ++ [47] /\ pjoin a b = a' ++ 47 :: b) \/ (a <> [] /\ pjoin a b = a ++ 47 :: b).
Proof.
  intros Hb. unfold pjoin. rewrite Hb. destruct (rev a) as [|c r] eqn:E.
  - left. split; auto. rewrite <- (rev_involutive a), E. reflexivity.
  - assert (Ea : a = rev r ++ [c]) by (rewrite <- (rev_involutive a), E; reflexivity). right. destruct (N.eqb_spec c SLASH) as [->|Hn].
    + left. exists (rev r). split; auto. rewrite Ea, <- app_assoc. reflexivity.
    + right. split; [rewrite Ea; destruct (rev r); discriminate|reflexivity].
Qed.
Lemma pcomps_pjoin a b : is_absolute b = false -> pcomps (pjoin a b) = pcomps a ++ pcomps b.
Proof.
  intros Hb. destruct (pjoin_cases a b Hb) as [(-> & ->)|[(a' & -> & ->)|(Ha & ->)]]; [reflexivity| |apply pcomps_app].
  rewrite !pcomps_app. cbn. rewrite app_nil_r. reflexivity.
Qed.
Lemma hstart_pjoin cwd a b : is_absolute b = false -> hstart cwd (pjoin a b) = hstart cwd a.
Proof.
  intros Hb. unfold hstart. destruct (pjoin_cases a b Hb) as [(-> & ->)|[(a' & -> & ->)|(Ha & ->)]].
  - rewrite Hb. reflexivity.
  - destruct a'; reflexivity.
  - destruct a; [congruence|reflexivity].
Qed.
Lemma dirlike_pjoin a b : is_absolute b = false -> dirlike (pjoin a b) = dirlike b.
Proof.
  intros Hb. assert (G : forall a, dirlike (a ++ 47 :: b) = dirlike b).
  { intros a0. unfold dirlike. rewrite split_app, rev_app_distr. pose proof (split_nonempty b) as Hn. destruct (rev (split_slash b)) eqn:E; [|reflexivity].
    apply (f_equal (@rev str)) in E. rewrite rev_involutive in E. destruct (Hn E). }
  destruct (pjoin_cases a b Hb) as [(-> & ->)|[(a' & -> & ->)|(Ha & ->)]]; auto.
Qed.
Lemma pjoin_nonempty a b : is_absolute b = false -> b <> [] -> pjoin a b <> [].
Proof.
  intros Hb Hn. destruct (pjoin_cases a b Hb) as [(-> & ->)|[(a' & -> & ->)|(Ha & ->)]]; auto; [destruct a'; discriminate|destruct a; discriminate].
Qed.
Lemma no_comps_dirlike s : pcomps s = [] -> dirlike s = true.
Proof.
  unfold pcomps, dirlike. intros H. destruct (rev (split_slash s)) as [|c r] eqn:E; [reflexivity|].
  assert (Hin : In c (split_slash s)) by (apply in_rev; rewrite E; left; reflexivity).
  destruct c as [|x c]; [reflexivity|]. destruct (is_dot (x :: c)) eqn:Ed; [reflexivity|].
  assert (Hf : In (x :: c) (filter (fun c => negb (match c with [] => true | _ => is_dot c end)) (split_slash s))) by (apply filter_In; split; auto; cbv beta iota; rewrite Ed; reflexivity).
  rewrite H in Hf. destruct Hf.
Qed.
Lemma trim_relative s : is_absolute (trim_start s) = false.
Proof. induction s as [|c s IH]; [reflexivity|]. cbn [trim_start]. destruct (c =? SLASH) eqn:E; auto. Qed.
Lemma trim_comps s : pcomps (trim_start s) = pcomps s.
Proof.
  induction s as [|c s IH]; [reflexivity|]. cbn [trim_start]. destruct (N.eqb_spec c SLASH) as [->|Hn]; auto.
Qed.

Lemma split_plain n : ~ In 47 n -> split_slash n = [n].
Proof.
  induction n as [|c n IH]; [reflexivity|]. intros H. cbn [split_slash]. destruct (N.eqb_spec c SLASH) as [->|Hn]; [destruct H; left; reflexivity|].
  rewrite IH; [reflexivity|]. intros Hi. apply H. right. exact Hi.
Qed.
Lemma is_dot_false n : n <> [46] -> is_dot n = false.
Proof. intros H. unfold is_dot. destruct (str_eqb n [DOT]) eqn:E; auto. apply str_eqb_spec in E. destruct (H E). Qed.
Lemma is_dotdot_false n : n <> dotdot -> is_dotdot n = false.
Proof. intros H. unfold is_dotdot. destruct (str_eqb n [DOT; DOT]) eqn:E; auto. apply str_eqb_spec in E. destruct (H E). Qed.
Lemma is_dotdot_true n : is_dotdot n = true -> n = dotdot.
Proof. apply str_eqb_spec. Qed.
Lemma pcomps_name n : unix_name n -> pcomps n = [n].
Proof.
  intros (H1 & H2 & H3 & H4 & H5). unfold pcomps. rewrite split_plain by auto. cbn [filter]. rewrite (is_dot_false n H2). destruct n; [congruence|reflexivity].
Qed.
Lemma pcomps_slashed q : Forall unix_name q -> pcomps (slashed q) = q.
Proof.
  induction 1 as [|n q Hn Hq IH]; [reflexivity|]. rewrite slashed_cons. change (pcomps ([] ++ 47 :: (n ++ slashed q)) = n :: q).
  rewrite pcomps_app. change (pcomps []) with (@nil str). cbn [app]. destruct Hq as [|n' q Hn' Hq].
  - cbn. rewrite app_nil_r. apply pcomps_name; auto.
  - rewrite slashed_cons. cbn [app]. rewrite pcomps_app, pcomps_name by auto. rewrite slashed_cons in IH.
    change (pcomps ([] ++ 47 :: (n' ++ slashed q)) = n' :: q) in IH. rewrite pcomps_app in IH. change (pcomps []) with (@nil str) in IH. cbn [app] in *. rewrite IH. reflexivity.
Qed.
Lemma name_relative n : ~ In 47 n -> is_absolute n = false.
Proof. destruct n as [|c n]; [reflexivity|]. intros H. cbn. apply N.eqb_neq. intros ->. apply H. left. reflexivity. Qed.
Lemma name_dirlike n : unix_name n -> dirlike n = false.
Proof.
  intros (H1 & H2 & H3 & H4 & H5). unfold dirlike. rewrite split_plain by auto. cbn [rev app]. rewrite is_dot_false, is_dotdot_false by auto. destruct n; [congruence|reflexivity].
Qed.
Lemma names_nul q : Forall unix_name q -> has_nul q = false.
Proof.
  unfold has_nul. induction 1 as [|n q Hn Hq IH]; [reflexivity|]. cbn [existsb]. rewrite IH, orb_false_r. destruct Hn as (H1 & H2 & H3 & H4 & H5).
  destruct (existsb (N.eqb 0) n) eqn:E; [|reflexivity]. apply existsb_exists in E as (x & Hx & Ex). apply N.eqb_eq in Ex. subst. destruct (H5 Hx).
Qed.
Lemma names_dotdot q : Forall unix_name q -> ~ In dotdot q.
Proof. intros H Hi. rewrite Forall_forall in H. apply H in Hi. destruct Hi as (_ & _ & Hi & _). congruence. Qed.

(** ** Hosts *)
Lemma hpath_eqb_spec p q : reflect (p = q) (hpath_eqb p q).
Proof.
  revert q; induction p as [|a p IH]; intros [|b q]; cbn; try (constructor; congruence).
  destruct (str_eqb a b) eqn:E; cbn [andb].
  - apply str_eqb_spec in E. subst b. destruct (IH q) as [->|Hn]; constructor; congruence.
  - constructor. intros [= -> ->]. assert (Eb : str_eqb b b = true) by (apply str_eqb_spec; reflexivity). congruence.
Qed.
Lemma hset_eq h p n : hset h p n p = Some n.
Proof. unfold hset. destruct (hpath_eqb_spec p p); congruence. Qed.
Lemma hset_neq h p n q : q <> p -> hset h p n q = h q.
Proof. intros H. unfold hset. destruct (hpath_eqb_spec q p); congruence. Qed.

Lemma split_last_snoc (cs : list str) c : split_last (cs ++ [c]) = Some (cs, c).
Proof.
  induction cs as [|x cs IH]; [reflexivity|]. cbn [app split_last]. rewrite IH. destruct cs; reflexivity.
Qed.
Lemma split_last_case (cs : list str) : (cs = [] /\ split_last cs = None) \/ exists i c, cs = i ++ [c] /\ split_last cs = Some (i, c).
Proof.
  destruct (rev cs) as [|c r] eqn:E.
  - left. rewrite <- (rev_involutive cs), E. auto.
  - right. assert (Ea : cs = rev r ++ [c]) by (rewrite <- (rev_involutive cs), E; reflexivity). exists (rev r), c. split; auto. rewrite Ea. apply split_last_snoc.
Qed.

Definition dirs_on (h : host) (cur cs : list str) : Prop := forall pre suf, cs = pre ++ suf -> pre <> [] -> h (cur ++ pre) = Some HDir.
Lemma hwalk_ok h (cs : list str) : forall (cur p : list str), ~ In dotdot cs -> hwalk h cur cs = Ok p -> p = cur ++ cs.
Proof.
  induction cs as [|c cs IH]; intros cur p Hd H; cbn [hwalk] in H; [injection H as <-; rewrite app_nil_r; reflexivity|].
  rewrite is_dotdot_false in H by (intros ->; apply Hd; left; reflexivity).
  match type of H with context [match ?x with _ => _ end] => destruct x as [[|b]|]; try discriminate end. apply IH in H; [|intros Hi; apply Hd; right; exact Hi]. rewrite H, <- app_assoc. reflexivity.
Qed.
Lemma hwalk_dirs h (cs : list str) : forall (cur : list str), ~ In dotdot cs -> dirs_on h cur cs -> hwalk h cur cs = Ok (cur ++ cs).
Proof.
  induction cs as [|c cs IH]; intros cur Hd H; cbn [hwalk]; [rewrite app_nil_r; reflexivity|].
  rewrite is_dotdot_false by (intros ->; apply Hd; left; reflexivity).
  rewrite (H [c] cs eq_refl) by discriminate. rewrite IH, <- app_assoc; [reflexivity|intros Hi; apply Hd; right; exact Hi|].
  intros pre suf E Hp. rewrite <- app_assoc. apply (H ([c] ++ pre) suf); [rewrite E; reflexivity|discriminate].
Qed.
Lemma hlocate_case h (start cs : list str) : ~ In dotdot cs ->
  match hlocate h start cs with
  | Ok (d, Some c) => exists i, cs = i ++ [c] /\ d = start ++ i
  | Ok (d, None) => cs = [] /\ d = start
  | Err _ => True
  | _ => False
  end.
Proof.
  intros Hd. unfold hlocate. destruct (split_last_case cs) as [(-> & ->)|(i & c & -> & ->)]; [auto|].
  assert (Hd' : ~ In dotdot i) by (intros Hi; apply Hd; apply in_or_app; auto).
  assert (G : forall (cs cur : list str), match hwalk h cur cs with Ok _ | Err _ => True | _ => False end).
  { clear. induction cs as [|c cs IH]; intros cur; cbn [hwalk]; auto. destruct (is_dotdot c); [apply IH|]. destruct (h (cur ++ [c])) as [[|b]|]; try exact I. apply IH. }
  specialize (G i start). destruct (hwalk h start i) as [p|e|e|] eqn:E; cbn [bind]; auto. apply hwalk_ok in E; auto. subst p.
  rewrite is_dotdot_false; [eauto|]. intros ->. apply Hd. apply in_or_app. right. left. reflexivity.
Qed.
Lemma hlocate_dirs h (start i : list str) (c : str) : ~ In dotdot (i ++ [c]) -> dirs_on h start i -> hlocate h start (i ++ [c]) = Ok (start ++ i, Some c).
Proof.
  intros Hd H. unfold hlocate. rewrite split_last_snoc, hwalk_dirs; auto; [|intros Hi; apply Hd, in_or_app; auto]. cbn [bind].
  rewrite is_dotdot_false; [reflexivity|]. intros ->. apply Hd. apply in_or_app. right. left. reflexivity.
Qed.

(** ** What the calls may change *)
(** Only missing directories on the way to [start ++ cs] appear. *)
Definition paved (start cs : list str) (h h' : host) : Prop :=
  forall q, h' q = h q \/ (h q = None /\ h' q = Some HDir /\ exists pre suf, cs = pre ++ suf /\ q = start ++ pre).
Lemma paved_refl start cs h : paved start cs h h.
Proof. intros q. auto. Qed.
Lemma paved_trans start cs h1 h2 h3 : paved start cs h1 h2 -> paved start cs h2 h3 -> paved start cs h1 h3.
Proof.
  intros A B q. destruct (A q) as [E|(E1 & E2 & E3)], (B q) as [F|(F1 & F2 & F3)].
  - left. congruence.
  - right. rewrite <- E. auto.
  - right. rewrite F. auto.
  - congruence.
Qed.
Lemma paved_more start cs c h h' : paved start cs h h' -> paved start (cs ++ [c]) h h'.
Proof.
  intros A q. destruct (A q) as [E|(E1 & E2 & pre & suf & -> & ->)]; auto. right. ssplit; auto. exists pre, (suf ++ [c]). rewrite app_assoc. auto.
Qed.

Lemma mkdir_paved (start cs : list str) w : ~ In dotdot cs -> paved start cs (w_fs w) (w_fs (fst (mkdir start cs w))).
Proof.
  intros Hd. unfold mkdir. destruct (has_nul cs); [apply paved_refl|]. pose proof (hlocate_case (w_fs w) start cs Hd) as L.
  destruct (hlocate (w_fs w) start cs) as [[d [c|]]|e|e|]; try apply paved_refl.
  destruct L as (i & -> & ->). destruct (w_fs w ((start ++ i) ++ [c])) eqn:E; [apply paved_refl|].
  destruct (spend w 1 <? 1); [apply paved_refl|]. cbn [fst w_fs after]. intros q. unfold hset. destruct (hpath_eqb_spec q ((start ++ i) ++ [c])) as [->|Hn]; [|auto].
  right. ssplit; auto. exists (i ++ [c]), []. rewrite app_nil_r, app_assoc. auto.
Qed.
Lemma mkdir_all_paved (start rcs : list str) : ~ In dotdot rcs -> forall w, paved start (rev rcs) (w_fs w) (w_fs (fst (mkdir_all start rcs w))).
Proof.
  induction rcs as [|c rcs IH]; intros Hd w.
  - cbn [mkdir_all]. pose proof (mkdir_paved start (rev []) w ltac:(intros [])) as P. destruct (mkdir start (rev []) w) as [w' [a|e|e|]]; cbn [fst] in *; auto.
    destruct e; try (destruct (is_dir_at (w_fs w') start (rev [])); exact P); exact P.
  - assert (Hr : ~ In dotdot (rev (c :: rcs))) by (intros Hi; apply Hd, in_rev; exact Hi).
    assert (Hd' : ~ In dotdot rcs) by (intros Hi; apply Hd; right; exact Hi).
    cbn [mkdir_all]. set (cs := rev (c :: rcs)) in *. pose proof (mkdir_paved start cs w Hr) as P. destruct (mkdir start cs w) as [w1 [a|e|e|]]; cbn [fst] in *; auto.
    assert (Q : paved start cs (w_fs w) (w_fs (fst (hbind (mkdir_all start rcs) (fun _ w => match mkdir start cs w with
      | (w, Err e) => if is_dir_at (w_fs w) start cs then (w, Ok tt) else (w, Err e) | r => r end) w1)))).
    { unfold hbind. specialize (IH Hd' w1). destruct (mkdir_all start rcs w1) as [w2 [a|e'|e'|]]; cbn [fst] in *;
        (assert (P2 : paved start cs (w_fs w) (w_fs w2)) by (eapply paved_trans; [exact P|]; unfold cs; cbn [rev]; apply paved_more; exact IH)); auto.
      pose proof (mkdir_paved start cs w2 Hr) as P3. destruct (mkdir start cs w2) as [w3 [a3|e3|e3|]]; cbn [fst] in *; try (eapply paved_trans; [exact P2|exact P3]).
      destruct (is_dir_at (w_fs w3) start cs); eapply paved_trans; [exact P2|exact P3|exact P2|exact P3]. }
    destruct e; try (destruct (is_dir_at (w_fs w1) start cs); exact P). exact Q.
Qed.
Lemma create_dir_all_paved cwd s w : no_dotdot s -> paved (hstart cwd s) (pcomps s) (w_fs w) (w_fs (fst (create_dir_all cwd s w))).
Proof.
  intros Hd. unfold create_dir_all. destruct s; [apply paved_refl|]. pose proof (mkdir_all_paved (hstart cwd (n :: s)) (rev (pcomps (n :: s)))) as P.
  rewrite rev_involutive in P. apply P. intros Hi. apply Hd, in_rev, Hi.
Qed.
Lemma create_dir_paved cwd s w : no_dotdot s -> paved (hstart cwd s) (pcomps s) (w_fs w) (w_fs (fst (create_dir cwd s w))).
Proof. intros Hd. unfold create_dir. destruct s; [apply paved_refl|]. apply mkdir_paved. exact Hd. Qed.

(** Only the file at [p] changes, and it was not a directory. *)
Definition filed (p : list str) (h h' : host) : Prop :=
  forall q, h' q = h q \/ (q = p /\ h q <> Some HDir /\ exists b, h' q = Some (HFile b)).
Lemma open_filed cwd s w : no_dotdot s ->
  let '(w', r) := open_trunc cwd s w in
  match r with
  | Ok p => p = place cwd s /\ dirlike s = false /\ filed p (w_fs w) (w_fs w') /\ exists b, w_fs w' p = Some (HFile b)
  | _ => w_fs w' = w_fs w
  end.
Proof.
  intros Hd. unfold open_trunc. destruct (has_nul (pcomps s)); [reflexivity|]. destruct s as [|c0 s0]; [reflexivity|]. set (s := c0 :: s0) in *.
  destruct (dirlike s) eqn:Ed; [reflexivity|]. pose proof (hlocate_case (w_fs w) (hstart cwd s) (pcomps s) Hd) as L.
  destruct (hlocate (w_fs w) (hstart cwd s) (pcomps s)) as [[d [c|]]|e|e|]; try reflexivity.
  destruct L as (i & Ei & ->). assert (G : w_fs w ((hstart cwd s ++ i) ++ [c]) <> Some HDir ->
    (hstart cwd s ++ i) ++ [c] = place cwd s /\ false = false /\ filed ((hstart cwd s ++ i) ++ [c]) (w_fs w) (hset (w_fs w) ((hstart cwd s ++ i) ++ [c]) (HFile []))
    /\ exists b, hset (w_fs w) ((hstart cwd s ++ i) ++ [c]) (HFile []) ((hstart cwd s ++ i) ++ [c]) = Some (HFile b)).
  { intros Hn. ssplit; auto.
    - unfold place. rewrite Ei, app_assoc. reflexivity.
    - intros q. unfold hset. destruct (hpath_eqb_spec q ((hstart cwd s ++ i) ++ [c])) as [->|Hq]; [right; eauto|auto].
    - rewrite hset_eq. eauto. }
  destruct (w_fs w ((hstart cwd s ++ i) ++ [c])) as [[|b]|] eqn:E; try reflexivity;
    (destruct (spend w 1 <? 1); [reflexivity|]; cbn [w_fs after]; apply G; discriminate).
Qed.
Lemma write_filed p b w b0 : w_fs w p = Some (HFile b0) -> filed p (w_fs w) (w_fs (fst (write_new p b w))).
Proof.
  intros H q. cbn [write_new fst w_fs after]. unfold write_new. cbn [fst w_fs after]. unfold hset. destruct (hpath_eqb_spec q p) as [->|Hq]; [|auto].
  right. ssplit; auto; [congruence|eauto].
Qed.

(** ** Staying below a place *)
Lemma stays_refl loc h : stays_below loc h h.
Proof. split; [auto|]. split; [auto|eauto]. Qed.
Lemma stays_trans loc h1 h2 h3 : stays_below loc h1 h2 -> stays_below loc h2 h3 -> stays_below loc h1 h3.
Proof.
  intros (A1 & A2 & A3) (B1 & B2 & B3). split; [|split].
  - intros q. destruct (A1 q) as [E|[E|(E1 & E2 & E3)]]; auto.
    + rewrite <- E. auto.
    + right. right. auto.
  - auto.
  - intros q b H. destruct (A3 _ _ H) as (b' & H'). apply (B3 _ _ H').
Qed.
Lemma prefix_two {A} (pre suf a b : list A) : a ++ b = pre ++ suf -> (exists c, a = pre ++ c) \/ (exists n c, pre = a ++ n :: c).
Proof.
  revert a; induction pre as [|x pre IH]; intros a E; [left; exists a; reflexivity|]. destruct a as [|y a]; cbn [app] in *.
  - right. exists x, pre. reflexivity.
  - injection E as -> E. destruct (IH a E) as [(c & ->)|(n & c & ->)]; [left; exists c; reflexivity|right; exists n, c; reflexivity].
Qed.
Lemma paved_stays start ds cs h h' : paved start (ds ++ cs) h h' -> stays_below (start ++ ds) h h'.
Proof.
  intros P. split; [|split].
  - intros q. destruct (P q) as [E|(E1 & E2 & pre & suf & E3 & ->)]; auto. right. destruct (prefix_two _ _ _ _ E3) as [(c & ->)|(n & c & ->)].
    + right. ssplit; auto. exists c. rewrite app_assoc. reflexivity.
    + left. exists n, c. rewrite app_assoc. reflexivity.
  - intros q H. destruct (P q) as [E|(E1 & E2 & E3)]; congruence.
  - intros q b H. destruct (P q) as [E|(E1 & E2 & E3)]; [rewrite E; eauto|congruence].
Qed.
Lemma filed_stays loc n p h h' : filed (loc ++ n :: p) h h' -> stays_below loc h h'.
Proof.
  intros P. split; [|split].
  - intros q. destruct (P q) as [E|(-> & E2 & E3)]; auto. right. left. exists n, p. reflexivity.
  - intros q H. destruct (P q) as [E|(E1 & E2 & E3)]; congruence.
  - intros q b H. destruct (P q) as [E|(E1 & E2 & b' & E3)]; [rewrite E; eauto|eauto].
Qed.

(** ** Calls that succeed *)
Lemma rooted_prefix h p q : rooted h -> h (p ++ q) <> None -> q <> [] -> h p = Some HDir.
Proof.
  intros (_ & HR). revert p. induction q as [|c q IH] using rev_ind; [congruence|]. intros p H _. rewrite app_assoc in H. apply HR in H.
  destruct q as [|c' q]; [rewrite app_nil_r in H; exact H|]. apply IH; [congruence|discriminate].
Qed.
Lemma rooted_hset h p n x : rooted h -> h p = Some HDir -> h (p ++ [n]) <> Some HDir -> rooted (hset h (p ++ [n]) x).
Proof.
  intros (R1 & R2) Hp Hn. split.
  - rewrite hset_neq; [exact R1|destruct p; discriminate].
  - intros q m H. unfold hset in H. destruct (hpath_eqb_spec (q ++ [m]) (p ++ [n])) as [E|E].
    + apply app_inj_tail in E as (-> & ->). rewrite hset_neq; [exact Hp|]. intros E. apply (f_equal (@length str)) in E. rewrite app_length in E. cbn in E. lia.
    + apply R2 in H. destruct (hpath_eqb_spec q (p ++ [n])) as [->|Hq]; [congruence|]. rewrite hset_neq by exact Hq. exact H.
Qed.
Lemma hwalk_missing h (cs : list str) : forall (cur : list str), ~ In dotdot cs -> cs <> [] ->
  (forall pre suf, cs = pre ++ suf -> pre <> [] -> h (cur ++ pre) = None \/ h (cur ++ pre) = Some HDir) -> h (cur ++ cs) = None -> hwalk h cur cs = Err HNotFound.
Proof.
  induction cs as [|c cs IH]; intros cur Hd Hne HP HN; [congruence|]. cbn [hwalk]. rewrite is_dotdot_false by (intros ->; apply Hd; left; reflexivity).
  destruct (HP [c] cs eq_refl ltac:(discriminate)) as [E|E]; rewrite E; [reflexivity|]. apply IH.
  - intros Hi. apply Hd. right. exact Hi.
  - intros ->. congruence.
  - intros pre suf Ep Hp. rewrite <- app_assoc. apply (HP ([c] ++ pre) suf); [rewrite Ep; reflexivity|discriminate].
  - rewrite <- app_assoc. exact HN.
Qed.

Lemma mkdir_new start i c w : ~ In dotdot (i ++ [c]) -> has_nul (i ++ [c]) = false -> dirs_on (w_fs w) start i -> w_fs w (start ++ i ++ [c]) = None -> w_left w = None ->
  mkdir start (i ++ [c]) w = (mkWorld (hset (w_fs w) (start ++ i ++ [c]) HDir) None, Ok tt).
Proof.
  intros Hd Hn HD HN HL. unfold mkdir. rewrite Hn, hlocate_dirs by auto. rewrite <- app_assoc, HN. unfold spend, after. rewrite HL. reflexivity.
Qed.
Lemma mkdir_old start i c w x : ~ In dotdot (i ++ [c]) -> has_nul (i ++ [c]) = false -> dirs_on (w_fs w) start i -> w_fs w (start ++ i ++ [c]) = Some x ->
  mkdir start (i ++ [c]) w = (w, Err HAlreadyExists).
Proof. intros Hd Hn HD HN. unfold mkdir. rewrite Hn, hlocate_dirs by auto. rewrite <- app_assoc, HN. reflexivity. Qed.
Lemma is_dir_at_dir h start i c : ~ In dotdot (i ++ [c]) -> has_nul (i ++ [c]) = false -> dirs_on h start i -> h (start ++ i ++ [c]) = Some HDir ->
  is_dir_at h start (i ++ [c]) = true.
Proof. intros Hd Hn HD HN. unfold is_dir_at. rewrite Hn, hlocate_dirs by auto. rewrite <- app_assoc, HN. reflexivity. Qed.

Lemma has_nul_app a b : has_nul (a ++ b) = has_nul a || has_nul b.
Proof. unfold has_nul. apply existsb_app. Qed.
Lemma rooted_dirs_on h start i : rooted h -> h (start ++ i) = Some HDir -> dirs_on h start i.
Proof.
  intros HR H pre suf -> Hp. destruct suf as [|c suf]; [rewrite app_nil_r in H; exact H|]. apply (rooted_prefix h (start ++ pre) (c :: suf)); [exact HR| |discriminate].
  rewrite <- app_assoc. rewrite H. discriminate.
Qed.
Lemma paved_rooted start cs h h' : rooted h -> h start = Some HDir -> paved start cs h h' -> dirs_on h' start cs -> rooted h'.
Proof.
  intros (R1 & R2) Hs P HD. assert (K : forall q, h q = Some HDir -> h' q = Some HDir) by (intros q Hq; destruct (P q) as [E|(E1 & E2 & E3)]; congruence).
  split; [auto|]. intros q n Hq. destruct (P (q ++ [n])) as [E|(E1 & E2 & pre & suf & E3 & E4)]; [rewrite E in Hq; apply K, (R2 q n Hq)|].
  destruct (split_last_case pre) as [(-> & _)|(pre0 & c & -> & _)]; [rewrite app_nil_r in E4; congruence|]. rewrite app_assoc in E4. apply app_inj_tail in E4 as (-> & <-).
  destruct pre0 as [|c' pre0]; [rewrite app_nil_r; auto|]. apply (HD (c' :: pre0) ([n] ++ suf)); [rewrite E3, <- app_assoc; reflexivity|discriminate].
Qed.

Lemma mkdir_all_ok (start cs : list str) : ~ In dotdot cs -> has_nul cs = false -> forall w, w_left w = None -> rooted (w_fs w) -> w_fs w start = Some HDir ->
  (forall pre suf, cs = pre ++ suf -> w_fs w (start ++ pre) = None \/ w_fs w (start ++ pre) = Some HDir) ->
  exists w', mkdir_all start (rev cs) w = (w', Ok tt) /\ w_left w' = None /\ dirs_on (w_fs w') start cs.
Proof.
  induction cs as [|c i IH] using rev_ind; intros Hd Hn w HL HR HS HP.
  - exists w. ssplit; auto. intros pre suf E Hp. symmetry in E. apply app_eq_nil in E as (-> & _). congruence.
  - assert (Hd' : ~ In dotdot i) by (intros Hi; apply Hd, in_or_app; auto). assert (Hn' : has_nul i = false) by (rewrite has_nul_app in Hn; apply orb_false_iff in Hn; apply Hn).
    rewrite rev_app_distr. cbn [rev app mkdir_all]. rewrite rev_involutive.
    destruct (HP (i ++ [c]) [] ltac:(rewrite app_nil_r; reflexivity)) as [E|E].
    + destruct (HP i [c] eq_refl) as [F|F].
      * assert (Hi : i <> []) by (intros ->; rewrite app_nil_r in F; congruence).
        assert (M : mkdir start (i ++ [c]) w = (w, Err HNotFound)).
        { unfold mkdir. rewrite Hn. unfold hlocate. rewrite split_last_snoc. rewrite hwalk_missing; auto.
          intros pre suf Ep Hp. apply (HP pre (suf ++ [c])). rewrite Ep, app_assoc. reflexivity. }
        rewrite M. unfold hbind.
        destruct (IH Hd' Hn' w HL HR HS) as (w1 & M1 & L1 & D1); [intros pre suf Ep; apply (HP pre (suf ++ [c])); rewrite Ep, app_assoc; reflexivity|].
        assert (P1 : paved start i (w_fs w) (w_fs w1)).
        { pose proof (mkdir_all_paved start (rev i)) as P. rewrite rev_involutive in P. specialize (P ltac:(intros Hi'; apply Hd', in_rev, Hi') w). rewrite M1 in P. exact P. }
        rewrite M1. rewrite mkdir_new; auto.
        -- eexists. ssplit; [reflexivity|reflexivity|]. cbn [w_fs]. intros pre suf Ep Hp. destruct (hpath_eqb_spec (start ++ pre) (start ++ i ++ [c])) as [Eq|Eq].
           ++ rewrite Eq, hset_eq. reflexivity.
           ++ rewrite hset_neq by exact Eq. destruct (split_last_case suf) as [(-> & _)|(suf0 & x & -> & _)]; [rewrite app_nil_r in Ep; subst; congruence|].
              rewrite app_assoc in Ep. apply app_inj_tail in Ep as (Ep & _). apply (D1 pre suf0 Ep Hp).
        -- destruct (P1 (start ++ i ++ [c])) as [Eq|(E1 & E2 & pre & suf & E3 & E4)]; [congruence|]. apply (f_equal (@length str)) in E3, E4. rewrite !app_length in *. cbn in *. lia.
      * rewrite mkdir_new; auto; [|apply rooted_dirs_on; auto]. eexists. ssplit; [reflexivity|reflexivity|]. cbn [w_fs]. intros pre suf Ep Hp.
        destruct (hpath_eqb_spec (start ++ pre) (start ++ i ++ [c])) as [Eq|Eq]; [rewrite Eq, hset_eq; reflexivity|].
        rewrite hset_neq by exact Eq. destruct (split_last_case suf) as [(-> & _)|(suf0 & x & -> & _)]; [rewrite app_nil_r in Ep; subst; congruence|].
        rewrite app_assoc in Ep. apply app_inj_tail in Ep as (Ep & _). apply (rooted_dirs_on _ start i HR F pre suf0 Ep Hp).
    + assert (Di : dirs_on (w_fs w) start i).
      { apply rooted_dirs_on; auto. apply (rooted_prefix _ _ [c]); [exact HR| |discriminate]. rewrite <- app_assoc, E. intros X. discriminate X. }
      rewrite (mkdir_old _ _ _ _ HDir), is_dir_at_dir by auto. exists w. ssplit; auto. apply rooted_dirs_on; auto.
Qed.

Lemma open_new cwd s i c w : s <> [] -> pcomps s = i ++ [c] -> dirlike s = false -> ~ In dotdot (i ++ [c]) -> has_nul (i ++ [c]) = false ->
  dirs_on (w_fs w) (hstart cwd s) i -> w_fs w (hstart cwd s ++ i ++ [c]) <> Some HDir -> w_left w = None ->
  open_trunc cwd s w = (mkWorld (hset (w_fs w) (hstart cwd s ++ i ++ [c]) (HFile [])) None, Ok (hstart cwd s ++ i ++ [c])).
Proof.
  intros Hs Hc Hdl Hd Hn HD HN HL. unfold open_trunc. rewrite Hc, Hn, Hdl, hlocate_dirs by auto. destruct s; [congruence|].
  rewrite <- app_assoc. unfold spend, after. rewrite HL. destruct (w_fs w (hstart cwd (n :: s) ++ i ++ [c])) as [[|b]|]; [congruence|reflexivity|reflexivity].
Qed.
Lemma write_new_ok p b w : w_left w = None -> write_new p b w = (mkWorld (hset (w_fs w) p (HFile b)) None, Ok tt).
Proof.
  intros HL. unfold write_new, spend, after. rewrite HL. rewrite P_Dev.slice_full. destruct (N.ltb_spec (len b) (len b)); [lia|reflexivity].
Qed.

Lemma str_dec (a b : str) : {a = b} + {a <> b}.
Proof. apply list_eq_dec, N.eq_dec. Qed.
Lemma prefix_dec (z loc : list str) : leads_to z loc \/ ~ leads_to z loc.
Proof.
  revert loc; induction z as [|a z IH]; intros loc; [left; exists loc; reflexivity|]. destruct loc as [|b loc]; [right; intros (c & Ec); discriminate|].
  destruct (str_dec a b) as [->|Hn]; [|right; intros (c & Ec); cbn in Ec; congruence].
  destruct (IH loc) as [(c & ->)|H]; [left; exists c; reflexivity|right; intros (c & Ec); apply H; exists c; cbn in Ec; congruence].
Qed.

Lemma no_nul s : ~ In 0 s -> has_nul (pcomps s) = false.
Proof.
  intros H. destruct (has_nul (pcomps s)) eqn:E; [|reflexivity]. exfalso. apply H. unfold has_nul in E. apply existsb_exists in E as (c & Hc & Ec). apply existsb_exists in Ec as (x & Hx & Ex).
  apply N.eqb_eq in Ex. subst x. unfold pcomps in Hc. apply filter_In in Hc as (Hc & _). clear -Hc Hx.
  revert c Hc Hx. induction s as [|a s IH]; intros c Hc Hx; cbn [split_slash] in Hc; [destruct Hc as [<-|[]]; destruct Hx|].
  destruct (a =? SLASH); [destruct Hc as [<-|Hc]; [destruct Hx|right; eauto]|].
  destruct (split_slash s) as [|p ps]; [destruct Hc as [<-|[]]; destruct Hx as [->|[]]; left; reflexivity|].
  destruct Hc as [<-|Hc]; [destruct Hx as [->|Hx]; [left; reflexivity|right; apply (IH p); [left; reflexivity|exact Hx]]|right; apply (IH c); [right; exact Hc|exact Hx]].
Qed.
