(** Proofs about unpacking where the image is a file of the host (C103-C105). *)
From Verif Require Import M_Base M_Util M_Layout M_Read M_Img M_Remap M_Cli M_Unpack M_Exiso M_Host M_Extract.
From Verif Require Import S_Codec S_Read S_Img S_Check S_Cli S_Unpack S_Exiso S_Fault S_Extract P_Base P_Find P_Src P_Check P_Cli P_Mono P_Host P_Unpack P_Exiso P_Fault.
From Coq Require Import Init.Byte Lia Permutation Strings.String.
From Coq Require Import List.
Local Close Scope string_scope.
Local Open Scope N_scope.

Lemma stays_keeps loc h h' ip file : stays_below loc h h' -> h ip = Some (HFile file) -> ~ strictly_below loc ip -> h' ip = Some (HFile file).
Proof. intros (H & _) Hi Hn. destruct (H ip) as [E|[E|(_ & E & _)]]; [congruence|contradiction|congruence]. Qed.

Lemma hbind_same {A B} (x x' : hprog A) (k k' : A -> hprog B) w : x w = x' w -> (forall a w', x' w = (w', Ok a) -> k a w' = k' a w') -> hbind x k w = hbind x' k' w.
Proof. intros H1 H2. unfold hbind. rewrite H1. destruct (x' w) as [w' [a|e|e|]]; auto. Qed.

Lemma loop_same cwd file ip base dest tree : no_dotdot dest -> ~ strictly_below (place cwd dest) ip ->
  Forall (fun x => no_dotdot (fst x)) tree -> Forall (fun x => harmless (name_str (snd x))) tree ->
  forall w, w_fs w ip = Some (HFile file) -> copyout_loop_at cwd ip base dest tree w = copyout_loop cwd file base dest tree w.
Proof.
  intros Hd Hip HD HN. induction tree as [|[dir e] tree IH]; intros w Hw; [reflexivity|]. inversion HD as [|? ? D1 D2]; subst. inversion HN as [|? ? N1 N2]; subst. cbn [fst snd] in *.
  cbn [copyout_loop copyout_loop_at]. cbv zeta. set (dirname := pjoin dest (trim_start dir)). set (file_path := pjoin dirname (name_str e)).
  assert (C1 : pcomps dirname = pcomps dest ++ pcomps dir) by (unfold dirname; rewrite pcomps_pjoin, trim_comps by apply trim_relative; reflexivity).
  assert (S1 : hstart cwd dirname = hstart cwd dest) by (apply hstart_pjoin, trim_relative).
  pose proof (harmless_relative _ N1) as R.
  assert (C2 : pcomps file_path = pcomps dest ++ pcomps dir ++ pcomps (name_str e)) by (unfold file_path; rewrite pcomps_pjoin, C1, app_assoc by auto; reflexivity).
  assert (S2 : hstart cwd file_path = hstart cwd dest) by (unfold file_path; rewrite hstart_pjoin by auto; exact S1).
  assert (K1 : no_dotdot dirname) by (unfold no_dotdot; rewrite C1, in_app_iff; intros [Hi|Hi]; auto).
  assert (K2 : no_dotdot file_path) by (unfold no_dotdot; rewrite C2, !in_app_iff; intros [Hi|[Hi|Hi]]; auto; destruct N1 as (_ & N1); auto).
  apply hbind_same; [reflexivity|]. intros [] w1 E1.
  assert (Hw1 : w_fs w1 ip = Some (HFile file)).
  { pose proof (create_dir_all_paved cwd dirname w K1) as P. rewrite C1, S1, E1 in P. eapply stays_keeps; [eapply paved_stays; exact P|exact Hw|exact Hip]. }
  assert (G : forall w2 r, (if is_directory (d_dirent (e_node e)) then create_dir cwd file_path
     else if d_namelen (d_dirent (e_node e)) =? 0 then hret tt else copy_file cwd file base file_path (d_region (d_dirent (e_node e)))) w1 = (w2, r) -> w_fs w2 ip = Some (HFile file)
     /\ (if is_directory (d_dirent (e_node e)) then create_dir cwd file_path
     else if d_namelen (d_dirent (e_node e)) =? 0 then hret tt else copy_file_at cwd ip base file_path (d_region (d_dirent (e_node e)))) w1 = (w2, r)).
  { intros w2 r E2. destruct (is_directory (d_dirent (e_node e))).
    - pose proof (create_dir_paved cwd file_path w1 K2) as P. rewrite C2, S2, E2 in P. split; [eapply stays_keeps; [eapply paved_stays; exact P|exact Hw1|exact Hip]|exact E2].
    - destruct (d_namelen (d_dirent (e_node e)) =? 0); [injection E2 as <- <-; auto|]. unfold copy_file in E2. unfold copy_file_at.
      pose proof (open_filed cwd file_path w1 K2) as P. unfold hbind in *. destruct (open_trunc cwd file_path w1) as [w3 [p|x|x|]];
        try (injection E2 as <- <-; rewrite P; auto).
      destruct P as (-> & Dl & Fi & (b & Hb)). assert (Hne : exists n q, place cwd file_path = place cwd dest ++ n :: q).
      { unfold place. rewrite C2, S2. destruct (pcomps dir ++ pcomps (name_str e)) as [|n q] eqn:El; [|exists n, q; rewrite app_assoc; reflexivity].
        apply app_eq_nil in El as (_ & El). apply no_comps_dirlike in El. unfold file_path in Dl. rewrite dirlike_pjoin in Dl by auto. congruence. }
      destruct Hne as (n & q & Hne). rewrite Hne in *.
      assert (Hw3 : w_fs w3 ip = Some (HFile file)) by (eapply stays_keeps; [eapply filed_stays; exact Fi|exact Hw1|exact Hip]).
      destruct (region_is_empty (d_region (d_dirent (e_node e)))); [injection E2 as <- <-; auto|]. unfold image_now. rewrite Hw3. split; [|exact E2].
      assert (F2 : stays_below (place cwd dest) (w_fs w3) (w_fs w2)).
      { pose proof (write_filed (place cwd dest ++ n :: q) (file_data file base (d_region (d_dirent (e_node e)))) w3 b Hb) as F. rewrite E2 in F. eapply filed_stays. exact F. }
      eapply stays_keeps; [exact F2|exact Hw3|exact Hip]. }
  match goal with |- hbind ?x _ w1 = hbind ?y _ w1 => destruct (y w1) as [w2 r] eqn:E2 end. destruct (G _ _ eq_refl) as (G1 & G2).
  apply hbind_same; [congruence|]. intros [] w2' E. rewrite E2 in E. injection E as -> ->. apply IH; auto.
Qed.

(** C103: unpacking elsewhere does what M_Unpack.v says and leaves the image alone. *)
Lemma unpack_same fuel cwd s dest w ip file : no_dotdot dest -> lists_harmless fuel file -> canonicalize (w_fs w) cwd s = Ok ip -> w_fs w ip = Some (HFile file) ->
  ~ strictly_below (place cwd dest) ip -> unpack_at fuel cwd s (Some dest) w = cmd_unpack fuel cwd s file (Some dest) w.
Proof.
  intros Hd HN Hc Hi Hb. unfold unpack_at, cmd_unpack, unpack_target, open_raw, existing. rewrite Hc. cbn [bind]. rewrite Hi. cbn [ok_or bind]. unfold uread at 1 3.
  destruct (offset_wrapper_new (file_dev file)) as [base|e|e|] eqn:Eb; try reflexivity. unfold uread at 1 2.
  destruct (read_volume (offset_dev (file_dev file) base)) as [v|e|e|] eqn:Ev; try reflexivity. unfold copyout_directory_at, copyout_directory, uread.
  replace (image_now ip w) with file by (unfold image_now; rewrite Hi; reflexivity).
  destruct (file_tree fuel (offset_dev (file_dev file) base) (v_root v)) as [tree|e|e|] eqn:Et; try reflexivity.
  assert (HH : Forall (fun x => harmless (name_str (snd x))) tree) by (apply (HN _ v tree) in Et; auto; unfold open_image; rewrite Eb; reflexivity).
  rewrite (loop_same cwd file ip base dest tree); auto. apply harmless_dirs; auto. eapply file_tree_order. exact Et.
Qed.
Lemma c103_lemma fuel cwd s dest w ip file : no_dotdot dest -> lists_harmless fuel file -> canonicalize (w_fs w) cwd s = Ok ip -> w_fs w ip = Some (HFile file) ->
  ~ strictly_below (place cwd dest) ip ->
  let r := unpack_at fuel cwd s (Some dest) w in r = cmd_unpack fuel cwd s file (Some dest) w /\ w_fs (fst r) ip = Some (HFile file).
Proof.
  intros Hd HN Hc Hi Hb r. assert (E : r = cmd_unpack fuel cwd s file (Some dest) w) by (eapply unpack_same; eauto). split; [exact E|]. rewrite E.
  eapply stays_keeps; [apply c47_lemma; auto|exact Hi|exact Hb].
Qed.

(** ** C104: several images *)
Lemma stem_fun n s : stem_of n s -> file_stem n = s.
Proof.
  intros H. assert (K : new_ext [] n (s ++ [46])).
  { destruct H as [(e & -> & Hs & He)|(-> & H)]; [left; exists s, e; auto|right; auto]. }
  pose proof (new_ext_fun [] n _ _ (name_with_ext_ok [] n) K) as E. unfold name_with_ext in E. cbn [app] in E. apply app_inj_tail in E. tauto.
Qed.
Lemma named_file h cwd s i n b : h cwd = Some HDir -> no_dotdot s -> canonicalize h cwd s = Ok (i ++ [n]) -> h (i ++ [n]) = Some (HFile b) -> file_name s = Some n.
Proof.
  intros Hcwd Hd. unfold canonicalize. destruct (has_nul (pcomps s)); [discriminate|]. destruct s as [|c0 s0]; [discriminate|]. set (s := c0 :: s0) in *. unfold hlocate.
  destruct (split_last_case (pcomps s)) as [(Ec & ->)|(j & c & Ec & ->)].
  - cbn [bind]. intros [= E] Hb. unfold hstart in E. destruct (is_absolute s); [destruct i; discriminate|congruence].
  - assert (Hc : is_dotdot c = false) by (apply is_dotdot_false; intros ->; apply Hd; rewrite Ec; apply in_or_app; right; left; reflexivity). rewrite Hc.
    destruct (hwalk h (hstart cwd s) j) as [d|e|e|]; try discriminate. cbn [bind]. intros H _. assert (E : d ++ [c] = i ++ [n]).
    { destruct (h (d ++ [c])) as [[|x]|]; [congruence| |discriminate]. destruct (dirlike s); congruence. }
    apply app_inj_tail in E as (_ & ->). unfold file_name. rewrite Ec, rev_app_distr. cbn [rev app]. rewrite Hc. reflexivity.
Qed.

Lemma place_name cwd s : unix_name s -> place cwd s = cwd ++ [s].
Proof.
  intros Hu. unfold place. rewrite (pcomps_name _ Hu). unfold hstart. replace (is_absolute s) with false; [reflexivity|]. destruct s as [|c s]; [reflexivity|]. cbn. symmetry. apply N.eqb_neq. intros ->. destruct Hu as (_ & _ & _ & Hu & _). apply Hu. left. reflexivity.
Qed.
Lemma free_name h cwd s : rooted h -> h cwd = Some HDir -> h (cwd ++ [s]) = None -> free_place h (cwd ++ [s]).
Proof.
  intros HR Hcwd Hn. split; intros q.
  - intros (p & E). destruct p as [|x p] using rev_ind; [rewrite app_nil_r in E; subst q; auto|clear IHp]. rewrite app_assoc in E. apply app_inj_tail in E as (E & _). right.
    destruct p as [|y p]; [rewrite app_nil_r in E; congruence|]. subst cwd. apply (rooted_prefix h q (y :: p)); [exact HR|congruence|discriminate].
  - intros (n & p & ->). destruct (h ((cwd ++ [s]) ++ n :: p)) eqn:E; [|reflexivity]. exfalso. pose proof (rooted_prefix h (cwd ++ [s]) (n :: p) HR) as K. rewrite K in Hn; congruence.
Qed.
Lemma at_parent t p t' : at_path t p t' -> forall q n, p = q ++ [n] -> exists cs, at_path t q (FDir cs).
Proof.
  induction 1 as [t|cs m c p t' Hin H IH]; intros q n E; [destruct q; discriminate|]. destruct q as [|x q].
  - exists cs. constructor.
  - injection E as -> E. destruct (IH q n E) as (cs' & H'). exists cs'. econstructor; eauto.
Qed.
Lemma leads_dec (q loc : list str) : leads_to q loc \/ ~ leads_to q loc.
Proof. destruct (starts_with loc q) eqn:E; [left; apply starts_with_spec; exact E|right; intros H; apply starts_with_spec in H; congruence]. Qed.
Lemma restored_rooted loc t h h' : rooted h -> restored loc t h h' -> rooted h'.
Proof.
  intros (R1 & R2) (H1 & H2 & H3 & H4). split; [apply H3; exists loc; reflexivity|]. intros p n Hp.
  destruct (leads_dec p loc) as [Hl|Hl]; [apply H3; exact Hl|]. destruct (leads_dec loc p) as [(c & ->)|Hb].
  - destruct (h' ((loc ++ c) ++ [n])) as [x|] eqn:E; [|congruence]. rewrite <- app_assoc in E. destruct (H2 _ _ E) as (t' & Ht). destruct (at_parent _ _ _ Ht c n eq_refl) as (cs & Hc).
    destruct (H1 _ _ Hc) as (y & Hy & ->). exact Hy.
  - assert (B : forall z, ~ leads_to loc z -> ~ strictly_below loc z) by (intros z Hz (m & q & ->); apply Hz; eexists; reflexivity).
    rewrite H4 by auto. apply R2 with n. destruct (leads_dec (p ++ [n]) loc) as [(c & E)|Hl2]; [destruct Hl; exists ([n] ++ c); rewrite E, <- app_assoc; reflexivity|].
    rewrite <- H4; auto. intros (m & q & E). destruct q as [|y q] using rev_ind.
    + apply app_inj_tail in E as (-> & _). apply Hl. exists []. rewrite app_nil_r. reflexivity.
    + clear IHq. rewrite app_comm_cons, app_assoc in E. apply app_inj_tail in E as (-> & _). apply Hb. exists (m :: q). reflexivity.
Qed.
Lemma honest_left {E A} (f : world -> world * res E A) w w' a : honest f -> w_left w = None -> f w = (w', Ok a) -> w_left w' = None.
Proof. intros H Hl E0. pose proof (H _ _ _ E0) as E1. destruct w as [h l]. cbn in Hl. subst l. unfold unfailing in E1. cbn in E1. rewrite E0 in E1. injection E1 as ->. reflexivity. Qed.

Definition job_loc (cwd : list str) (j : xjob) : list str := cwd ++ [j_stem j].

Lemma unpack_default fuel cwd s n w : file_name s = Some n -> unpack_at fuel cwd s None w = unpack_at fuel cwd s (Some (file_stem n)) w.
Proof. intros E. unfold unpack_at, unpack_target. rewrite E. reflexivity. Qed.

Lemma extract_one cwd j w : w_left w = None -> rooted (w_fs w) -> w_fs w cwd = Some HDir -> extractable cwd (w_fs w) j ->
  exists w', returns (fun fuel => unpack_at fuel cwd (j_path j) None w) (w', Ok tt) /\ w_left w' = None /\ restored (job_loc cwd j) (j_tree j) (w_fs w) (w_fs w').
Proof.
  intros Hl HR Hcwd (Hd & (i & n & Hc & Hf & Hs) & Hi & Hu & Ht & Hn & Hx). pose proof (free_name _ _ _ HR Hcwd Hx) as HF. pose proof (place_name cwd _ Hn) as Hp.
  assert (Hrd : ready_for cwd (j_stem j) (j_tree j) w).
  { unfold ready_for. rewrite Hp. pose proof (pcomps_name _ Hn) as Ec. ssplit; auto; [|apply Hn]. unfold no_dotdot. rewrite Ec. intros [E|[]]. destruct Hn as (_ & _ & Hn & _). auto. }
  destruct (c48_lemma cwd (j_path j) (j_file j) (j_stem j) (j_tree j) w Hi Hu Hrd) as (w' & (k & R) & W). exists w'. rewrite Hp in W. split; [|split; [|exact W]].
  - exists k. intros fuel Hk. rewrite (unpack_default fuel cwd _ n w) by (eapply named_file; eauto). rewrite (stem_fun _ _ Hs).
    rewrite (unpack_same fuel cwd (j_path j) (j_stem j) w (i ++ [n]) (j_file j)); auto.
    + apply Hrd.
    + eapply harmless_image; [exact Hi|]. intros p cs Hq m Hm. apply unix_harmless. apply (Hu p cs Hq m Hm).
    + rewrite Hp. intros Hb. destruct HF as (_ & HF). rewrite (HF _ Hb) in Hf. discriminate.
  - eapply (honest_left (fun w => cmd_unpack k cwd (j_path j) (j_file j) (Some (j_stem j)) w)); [apply honest_unpack|exact Hl|apply R; lia].
Qed.

Lemma restored_tree loc t h h' : restored loc t h h' -> tree_at h' loc t.
Proof. intros (H1 & H2 & _). split; [|exact H2]. intros p t' Hp. destruct (H1 p t' Hp) as (x & Hx & ->). exact Hx. Qed.

Lemma loc_apart (cwd : list str) a b q : a <> b -> leads_to (cwd ++ [a]) q -> ~ leads_to (cwd ++ [b]) q.
Proof. intros Hab (x & ->) (y & E). rewrite <- !app_assoc in E. apply app_inv_head in E. injection E. congruence. Qed.

Lemma restored_others cwd s t h h' q : w_fs h cwd = Some HDir -> rooted (w_fs h) -> restored (cwd ++ [s]) t (w_fs h) (w_fs h') -> ~ leads_to (cwd ++ [s]) q -> w_fs h' q = w_fs h q.
Proof.
  intros Hcwd HR (H1 & H2 & H3 & H4) Hq. destruct (leads_dec q (cwd ++ [s])) as [Hl|Hl].
  - rewrite (H3 _ Hl). destruct Hl as (p & E). destruct p as [|x p] using rev_ind; [destruct Hq; exists []; rewrite app_nil_r in E; rewrite app_nil_r; auto|clear IHp].
    rewrite app_assoc in E. apply app_inj_tail in E as (E & _). destruct p as [|y p]; [rewrite app_nil_r in E; congruence|]. symmetry. subst cwd. apply (rooted_prefix _ q (y :: p)); [exact HR|congruence|discriminate].
  - apply H4; auto. intros (m & p & ->). apply Hq. eexists. reflexivity.
Qed.

Lemma c104_lemma cwd js : forall w, w_left w = None -> rooted (w_fs w) -> w_fs w cwd = Some HDir -> Forall (extractable cwd (w_fs w)) js -> NoDup (map j_stem js) ->
  exists w', returns (fun fuel => exiso_extract fuel cwd None (map j_path js) w) (w', Ok tt)
    /\ (forall j, In j js -> tree_at (w_fs w') (cwd ++ [j_stem j]) (j_tree j))
    /\ forall q, (forall j, In j js -> ~ leads_to (cwd ++ [j_stem j]) q) -> w_fs w' q = w_fs w q.
Proof.
  induction js as [|j js IH]; intros w Hl HR Hcwd HF HD.
  - exists w. split; [exists 0%nat; reflexivity|]. split; [intros j []|reflexivity].
  - inversion HF as [|? ? F1 F2]; subst. inversion HD as [|? ? D1 D2]; subst. destruct (extract_one cwd j w Hl HR Hcwd F1) as (w1 & (k & R) & Hl1 & W1).
    pose proof (fun q => restored_others cwd _ _ _ _ q Hcwd HR W1) as O. unfold job_loc in W1.
    assert (Hcwd1 : w_fs w1 cwd = Some HDir).
    { apply W1. exists [j_stem j]. reflexivity. }
    assert (K : forall q b, w_fs w q = Some (HFile b) -> w_fs w1 q = Some (HFile b)).
    { intros q b Hq. rewrite O; [exact Hq|]. intros (c & ->). destruct F1 as (_ & _ & _ & _ & _ & _ & Hx). destruct (free_name _ _ _ HR Hcwd Hx) as (_ & G). destruct c as [|m c]; [rewrite app_nil_r in Hq; congruence|]. rewrite G in Hq; [discriminate|]. exists m, c. reflexivity. }
    assert (KD : forall q, w_fs w q = Some HDir -> w_fs w1 q = Some HDir).
    { intros q Hq. destruct (leads_dec (cwd ++ [j_stem j]) q) as [(c & ->)|Hn]; [|rewrite O; auto]. destruct F1 as (_ & _ & _ & _ & _ & _ & Hx). destruct (free_name _ _ _ HR Hcwd Hx) as (_ & G). destruct c as [|m c]; [rewrite app_nil_r in Hq; congruence|]. rewrite G in Hq; [discriminate|]. exists m, c. reflexivity. }
    destruct (IH w1) as (w2 & (k2 & R2) & T2 & O2); auto.
    + eapply restored_rooted; eauto.
    + rewrite Forall_forall in *. intros j' Hj'. destruct (F2 j' Hj') as (G1 & (i & n & G2 & G3 & G4) & G5 & G6 & G7 & G8 & G9). unfold extractable. ssplit; auto.
      * exists i, n. ssplit; auto. eapply canonicalize_more; [exact KD|exact G2|]. intros b Hb. eauto.
      * rewrite O; auto. apply (loc_apart cwd (j_stem j')); [intros E; apply D1; rewrite <- E; apply in_map; exact Hj'|exists []; rewrite app_nil_r; reflexivity].
    + exists w2. split; [|split].
      * exists (Nat.max k k2). intros fuel Hf. cbn [map exiso_extract]. rewrite R by lia. apply R2. lia.
      * intros j' [<-|Hj']; [|apply T2; exact Hj']. destruct (restored_tree _ _ _ _ W1) as (T3 & T4). assert (E : forall p, w_fs w2 ((cwd ++ [j_stem j]) ++ p) = w_fs w1 ((cwd ++ [j_stem j]) ++ p)).
        { intros p. apply O2. intros j' Hj'. apply (loc_apart cwd (j_stem j)); [intros E; apply D1; rewrite E; apply in_map; exact Hj'|exists p; reflexivity]. }
        split; [intros p t' Hp; rewrite E; apply T3; exact Hp|intros p x Hx; rewrite E in Hx; eapply T4; exact Hx].
      * intros q Hq. rewrite O2 by (intros j' Hj'; apply Hq; right; exact Hj'). apply O. apply Hq. left. reflexivity.
Qed.

Lemma c103_restores cwd s dest w ip file t : canonicalize (w_fs w) cwd s = Ok ip -> w_fs w ip = Some (HFile file) -> is_image file t -> unix_tree t -> ready_for cwd dest t w ->
  exists w', returns (fun fuel => unpack_at fuel cwd s (Some dest) w) (w', Ok tt) /\ restored (place cwd dest) t (w_fs w) (w_fs w') /\ w_fs w' ip = Some (HFile file).
Proof.
  intros Hc Hi HI HU HW. destruct (c48_lemma cwd s file dest t w HI HU HW) as (w' & (k & R) & W). exists w'.
  assert (HN : forall fuel, lists_harmless fuel file) by (intros fuel; eapply harmless_image; [exact HI|]; intros p cs Hq m Hm; apply unix_harmless; apply (HU p cs Hq m Hm)).
  assert (Hb : ~ strictly_below (place cwd dest) ip) by (intros Hb; destruct HW as (_ & _ & _ & _ & _ & (_ & HF) & _); rewrite (HF _ Hb) in Hi; discriminate).
  assert (Hd : no_dotdot dest) by apply HW.
  split; [|split; [exact W|]].
  - exists k. intros fuel Hk. rewrite (unpack_same fuel cwd s dest w ip file); auto.
  - pose proof (c103_lemma k cwd s dest w ip file Hd (HN k) Hc Hi Hb) as K. cbv zeta in K. destruct K as (K1 & K2). rewrite K1, (R k) in K2 by lia. exact K2.
Qed.

(** ** C105: listing several images *)
Lemma c105_lemma js : Forall (fun j => is_image (snd (fst j)) (snd j)) js ->
  exists outs, Forall2 (fun (j : str * list byte * ftree) lines => exists body, Permutation body (map row_line (rows [] (snd j)))
      /\ lines = body ++ [decimal (count_files (snd j)) ++ text " files, " ++ decimal (count_bytes (snd j)) ++ text " bytes in " ++ fst (fst j)]) js outs
    /\ returns (fun fuel => exiso_list fuel (map fst js)) (concat outs, Ok tt).
Proof.
  induction js as [|[[name file] t] js IH]; intros H; [exists []; split; [constructor|exists 0%nat; reflexivity]|]. inversion H as [|? ? H1 H2]; subst. cbn [fst snd] in H1.
  destruct (IH H2) as (outs & O & (k & R)). destruct (c67_lemma file t name H1) as (body & B & (k' & R')).
  eexists (_ :: outs). split; [constructor; [cbn [fst snd]; exists body; split; [exact B|reflexivity]|exact O]|].
  exists (Nat.max k k'). intros fuel Hf. cbn [map fst exiso_list concat]. rewrite R' by lia. unfold andthen. cbn [fst snd]. rewrite R by lia. reflexivity.
Qed.

(** ** C99 for these commands *)
Lemma honest_copyout_at cwd ip base dest tree : honest (copyout_loop_at cwd ip base dest tree).
Proof.
  induction tree as [|[dir e] tree IH]; [apply honest_ret|]. cbn [copyout_loop_at]. apply honest_bind; [apply honest_create_dir_all|]. intros _. apply honest_bind; [|intros _; exact IH].
  destruct (is_directory _); [apply honest_create_dir|]. destruct (_ =? 0); [apply honest_ret|]. apply honest_bind; [apply honest_open|]. intros p. destruct (region_is_empty _); [apply honest_ret|].
  intros w w' a. exact (honest_write p _ w w' a).
Qed.
Lemma honest_unpack_at fuel cwd s target : honest (unpack_at fuel cwd s target).
Proof.
  intros w w' a. unfold unpack_at. destruct (unpack_target s target); try discriminate. unfold open_raw. rewrite unfailing_fs. destruct (existing (w_fs w) cwd s) as [[ip [|file]]|e|p|]; try discriminate.
  unfold uread. destruct (offset_wrapper_new _); try discriminate. destruct (read_volume _); try discriminate. unfold copyout_directory_at.
  change (image_now ip (unfailing w)) with (image_now ip w). unfold uread. destruct (file_tree _ _ _); try discriminate. apply (honest_uhost _ (honest_copyout_at _ _ _ _ _)).
Qed.
Lemma honest_extract fuel cwd directory xs : honest (exiso_extract fuel cwd directory xs).
Proof.
  induction xs as [|x xs IH]; intros w w' a; cbn [exiso_extract]; [intros [= <- <-]; reflexivity|].
  destruct (unpack_at fuel cwd x directory w) as [w1 [u| | |]] eqn:E; try discriminate. rewrite (honest_unpack_at _ _ _ _ _ _ _ E). apply IH.
Qed.

(** What is no image is refused before anything is written. *)
Lemma c103_no_image fuel cwd s dest w : (forall ip file d v, canonicalize (w_fs w) cwd s = Ok ip -> w_fs w ip = Some (HFile file) -> open_image file = Ok d -> read_volume d <> Ok v) ->
  fst (unpack_at fuel cwd s (Some dest) w) = w /\ snd (unpack_at fuel cwd s (Some dest) w) <> Ok tt.
Proof.
  intros H. unfold unpack_at, unpack_target, open_raw, existing. destruct (canonicalize (w_fs w) cwd s) as [ip|e|e|]; cbn [bind]; try (split; [reflexivity|discriminate]).
  destruct (w_fs w ip) as [[|file]|] eqn:Ef; cbn [bind ok_or]; try (split; [reflexivity|discriminate]). specialize (H ip file). unfold open_image in H.
  unfold uread. destruct (offset_wrapper_new (file_dev file)) as [base|e|e|]; try (split; [reflexivity|discriminate]). cbn [bind] in H.
  destruct (read_volume (offset_dev (file_dev file) base)) as [v|e|e|] eqn:Ev; try (split; [reflexivity|discriminate]). exfalso. eapply H; [reflexivity|exact Ef|reflexivity|exact Ev].
Qed.
