(** Proofs about unpacking (C47-C49, C70). *)
From Verif Require Import M_Base M_Util M_Layout M_Read M_Img M_Cli M_Host M_Unpack S_Codec S_Read S_Img S_Check S_Cli S_Unpack P_Base P_Find P_Src P_Check P_Cli P_Mono P_Host.
From Coq Require Import Init.Byte Lia Permutation.
Local Open Scope N_scope.

(** ** The order of [file_tree]: a directory comes before its entries *)
Definition listed_in (l : list (str * dentry)) (p : str) : Prop :=
  p = [] \/ exists p' e', In (p', e') l /\ is_dir e' = true /\ p = p' ++ [47] ++ name_str e'.
Definition parents_first (l : list (str * dentry)) : Prop := forall l1 x l2, l = l1 ++ x :: l2 -> listed_in l1 (fst x).
Lemma listed_more l l' p : listed_in l p -> listed_in (l ++ l') p.
Proof. intros [->|(p' & e' & H & H1)]; [left; reflexivity|right; exists p', e'; split; auto; apply in_or_app; auto]. Qed.

Lemma push_dirs_in parent children : forall stack p t, In (p, t) (push_dirs parent children stack) ->
  In (p, t) stack \/ exists e, In e children /\ is_dir e = true /\ p = parent ++ [47] ++ name_str e.
Proof.
  unfold push_dirs. induction children as [|e children IH]; intros stack p t H; cbn [fold_left] in H; [auto|].
  apply IH in H as [H|(e' & H1 & H2)]; [|right; exists e'; split; [right; auto|auto]].
  destruct (dirent_table (d_dirent (e_node e))) as [t'|] eqn:E; [|auto].
  destruct H as [H|H]; [|auto]. right. exists e. ssplit; [left; reflexivity| |injection H as H _; symmetry; exact H]. unfold dirent_table in E. unfold is_dir. change (is_directory (d_dirent (e_node e)) = true). destruct (is_directory (d_dirent (e_node e))); [reflexivity|discriminate].
Qed.
Lemma app_split {A} (l : list A) : forall a l1 x l2, l ++ a = l1 ++ x :: l2 -> (exists l2', l = l1 ++ x :: l2') \/ (exists l1', l1 = l ++ l1' /\ a = l1' ++ x :: l2).
Proof.
  induction l as [|y l IH]; intros a l1 x l2 E; [right; exists l1; auto|]. destruct l1 as [|z l1]; cbn [app] in E.
  - injection E as -> E. left. exists l. reflexivity.
  - injection E as -> E. destruct (IH _ _ _ _ E) as [(l2' & ->)|(l1' & -> & ->)]; [left; exists l2'; reflexivity|right; exists l1'; auto].
Qed.
Lemma file_tree_order_loop fuel d : forall stack out res, file_tree_loop fuel d stack out = Ok res ->
  (forall p t, In (p, t) stack -> listed_in out p) -> parents_first out -> parents_first res.
Proof.
  induction fuel as [|fuel IH]; intros [|[parent tree] stack] out res H HS HO; cbn [file_tree_loop] in H; try discriminate; try (injection H as <-; exact HO).
  destruct (walk_dirent_tree fuel d tree) as [children|e|e|] eqn:E; try discriminate. cbn [bind] in H. apply IH in H; auto.
  - intros p t Hin. apply push_dirs_in in Hin as [Hin|(e & H1 & H2 & ->)]; [apply listed_more; apply (HS p t); right; exact Hin|].
    right. exists parent, e. ssplit; auto. apply in_or_app. right. apply in_map_iff. eauto.
  - intros l1 x l2 El. apply app_split in El as [(l2' & ->)|(l1' & -> & Em)]; [eapply HO; reflexivity|].
    assert (Hx : In x (map (fun e => (parent, e)) children)) by (rewrite Em; apply in_or_app; right; left; reflexivity).
    apply in_map_iff in Hx as (e & <- & _). apply listed_more. apply (HS parent tree). left. reflexivity.
Qed.
Lemma file_tree_order fuel d r res : file_tree fuel d r = Ok res -> parents_first res.
Proof.
  intros H. eapply file_tree_order_loop; [exact H| |].
  - intros p t [[= <- <-]|[]]. left. reflexivity.
  - intros l1 x l2 E. destruct l1; discriminate.
Qed.

(** ** C47 *)
Lemma harmless_relative n : harmless n -> is_absolute n = false.
Proof. intros (H & _). destruct n as [|c n]; [reflexivity|]. cbn. apply N.eqb_neq. intros ->. apply (H n). reflexivity. Qed.
Lemma harmless_dirs res : parents_first res -> Forall (fun x => harmless (name_str (snd x))) res -> Forall (fun x => no_dotdot (fst x)) res.
Proof.
  intros HO HN. assert (G : forall l l', res = l ++ l' -> Forall (fun x => no_dotdot (fst x)) l).
  { intros l. induction l as [|x l IH] using rev_ind; intros l' E; [constructor|]. rewrite <- app_assoc in E. specialize (IH _ E). apply Forall_app. split; auto. constructor; [|constructor].
    destruct (HO _ _ _ E) as [E0|(p' & e' & Hin & Hd & E0)]; rewrite E0.
    - intros [].
    - unfold no_dotdot. cbn [app]. rewrite pcomps_app, in_app_iff. rewrite Forall_forall in IH, HN. intros [Hi|Hi]; [apply (IH _ Hin); exact Hi|].
      apply (HN (p', e')); [rewrite E; apply in_or_app; auto|exact Hi]. }
  apply (G res []). rewrite app_nil_r. reflexivity.
Qed.

Lemma hbind_stays {A B} loc (x : hprog A) (k : A -> hprog B) w : stays_below loc (w_fs w) (w_fs (fst (x w))) ->
  (forall a w', x w = (w', Ok a) -> stays_below loc (w_fs w') (w_fs (fst (k a w')))) -> stays_below loc (w_fs w) (w_fs (fst (hbind x k w))).
Proof.
  intros H1 H2. unfold hbind. destruct (x w) as [w' [a|e|e|]]; cbn [fst] in *; auto. eapply stays_trans; [exact H1|]. apply H2. reflexivity.
Qed.

Lemma copyout_stays cwd file base dest tree : no_dotdot dest -> Forall (fun x => no_dotdot (fst x)) tree -> Forall (fun x => harmless (name_str (snd x))) tree ->
  forall w, stays_below (place cwd dest) (w_fs w) (w_fs (fst (copyout_loop cwd file base dest tree w))).
Proof.
  intros Hd HD HN. induction tree as [|[dir e] tree IH]; intros w; [apply stays_refl|]. inversion HD as [|? ? D1 D2]; subst. inversion HN as [|? ? N1 N2]; subst. cbn [fst snd] in *.
  cbn [copyout_loop]. cbv zeta. set (dirname := pjoin dest (trim_start dir)). set (file_path := pjoin dirname (name_str e)).
  assert (C1 : pcomps dirname = pcomps dest ++ pcomps dir) by (unfold dirname; rewrite pcomps_pjoin, trim_comps by apply trim_relative; reflexivity).
  assert (S1 : hstart cwd dirname = hstart cwd dest) by (apply hstart_pjoin, trim_relative).
  pose proof (harmless_relative _ N1) as R.
  assert (C2 : pcomps file_path = pcomps dest ++ pcomps dir ++ pcomps (name_str e)) by (unfold file_path; rewrite pcomps_pjoin, C1, app_assoc by auto; reflexivity).
  assert (S2 : hstart cwd file_path = hstart cwd dest) by (unfold file_path; rewrite hstart_pjoin by auto; exact S1).
  assert (K1 : no_dotdot dirname) by (unfold no_dotdot; rewrite C1, in_app_iff; intros [Hi|Hi]; auto).
  assert (K2 : no_dotdot file_path) by (unfold no_dotdot; rewrite C2, !in_app_iff; intros [Hi|[Hi|Hi]]; auto; destruct N1 as (_ & N1); auto).
  apply hbind_stays.
  - pose proof (create_dir_all_paved cwd dirname w K1) as P. rewrite C1, S1 in P. eapply paved_stays. exact P.
  - intros _ w1 _. apply hbind_stays; [|intros _ w2 _; apply IH; auto].
    destruct (is_directory (d_dirent (e_node e))).
    + pose proof (create_dir_paved cwd file_path w1 K2) as P. rewrite C2, S2 in P. eapply paved_stays. exact P.
    + destruct (d_namelen (d_dirent (e_node e)) =? 0); [apply stays_refl|]. unfold copy_file.
      pose proof (open_filed cwd file_path w1 K2) as P. unfold hbind. destruct (open_trunc cwd file_path w1) as [w2 [p|x|x|]]; try (cbn [fst]; rewrite P; apply stays_refl).
      destruct P as (-> & Dl & Fi & (b & Hb)). assert (Hne : exists n q, place cwd file_path = place cwd dest ++ n :: q).
      { unfold place. rewrite C2, S2. destruct (pcomps dir ++ pcomps (name_str e)) as [|n q] eqn:El; [|exists n, q; rewrite app_assoc; reflexivity].
        apply app_eq_nil in El as (_ & El). apply no_comps_dirlike in El. unfold file_path in Dl. rewrite dirlike_pjoin in Dl by auto. congruence. }
      destruct Hne as (n & q & Hne). rewrite Hne in *. destruct (region_is_empty (d_region (d_dirent (e_node e)))).
      * eapply filed_stays. exact Fi.
      * eapply stays_trans; [eapply filed_stays; exact Fi|]. eapply filed_stays. eapply write_filed. exact Hb.
Qed.

Lemma c47_dir fuel cwd file base dest r w : no_dotdot dest ->
  (forall tree, file_tree fuel (offset_dev (file_dev file) base) r = Ok tree -> Forall (fun x => harmless (name_str (snd x))) tree) ->
  stays_below (place cwd dest) (w_fs w) (w_fs (fst (copyout_directory fuel cwd file base dest r w))).
Proof.
  intros Hd HN. unfold copyout_directory, uread. destruct (file_tree fuel (offset_dev (file_dev file) base) r) as [tree|e|e|] eqn:E; try apply stays_refl.
  unfold uhost. cbn [fst]. apply copyout_stays; auto. apply harmless_dirs; auto. eapply file_tree_order. exact E.
Qed.

(** ** C48: unpacking into a free place *)
Definition node_of (file : list byte) (base : N) (e : dentry) : hnode :=
  if is_dir e then HDir else HFile (file_data file base (region_of e)).

Lemma free_dirs h cwd dest q : rooted h -> (q = [] \/ h (place cwd dest ++ q) = Some HDir) ->
  (forall z, leads_to z (place cwd dest) -> h z = None \/ h z = Some HDir) ->
  forall pre suf, pcomps dest ++ q = pre ++ suf -> h (hstart cwd dest ++ pre) = None \/ h (hstart cwd dest ++ pre) = Some HDir.
Proof.
  intros HR Hq HP pre suf E. destruct (prefix_two _ _ _ _ E) as [(c & Ec)|(n & c & Ec)].
  - apply HP. exists c. unfold place. rewrite Ec, app_assoc. reflexivity.
  - right. subst pre. rewrite <- app_assoc in E. apply app_inv_head in E. subst q. destruct Hq as [Hq|Hq]; [discriminate|].
    unfold place in Hq. rewrite <- app_assoc in Hq. apply (rooted_dirs_on _ (hstart cwd dest) (pcomps dest ++ (n :: c) ++ suf) HR Hq (pcomps dest ++ n :: c) suf); [rewrite <- app_assoc; reflexivity|destruct (pcomps dest); discriminate].
Qed.

(** What the loop does for one entry, given the path of its directory and its name. *)
Definition one_entry (cwd : list str) (file : list byte) (base : N) (dirname n : str) (e : dentry) : hprog unit :=
  hbind (create_dir_all cwd dirname) (fun _ =>
  if is_directory (d_dirent (e_node e)) then create_dir cwd (pjoin dirname n)
  else if d_namelen (d_dirent (e_node e)) =? 0 then hret tt
  else copy_file cwd file base (pjoin dirname n) (d_region (d_dirent (e_node e)))).

Lemma copyout_step cwd file base dest q n e w :
  no_dotdot dest -> has_nul (pcomps dest) = false -> Forall unix_name q -> unix_name n -> d_namelen (d_dirent (e_node e)) <> 0 ->
  w_left w = None -> rooted (w_fs w) -> w_fs w cwd = Some HDir ->
  (forall z, leads_to z (place cwd dest) -> w_fs w z = None \/ w_fs w z = Some HDir) ->
  (q = [] \/ w_fs w (place cwd dest ++ q) = Some HDir) -> w_fs w (place cwd dest ++ q ++ [n]) = None ->
  exists w', one_entry cwd file base (pjoin dest (trim_start (slashed q))) n e w = (w', Ok tt)
    /\ w_left w' = None /\ rooted (w_fs w') /\ w_fs w' (place cwd dest ++ q ++ [n]) = Some (node_of file base e)
    /\ (forall z, leads_to z (place cwd dest) -> w_fs w' z = Some HDir)
    /\ (forall z, ~ leads_to z (place cwd dest) -> z <> place cwd dest ++ q ++ [n] -> w_fs w' z = w_fs w z).
Proof.
  intros Hd Hnul Uq Un Hnl HL HR Hcwd HP Hq HN. set (loc := place cwd dest) in *.
  set (dirname := pjoin dest (trim_start (slashed q))). set (file_path := pjoin dirname n).
  assert (Rn : is_absolute n = false) by (apply name_relative; apply Un).
  assert (C1 : pcomps dirname = pcomps dest ++ q) by (unfold dirname; rewrite pcomps_pjoin by apply trim_relative; rewrite trim_comps, pcomps_slashed by auto; reflexivity).
  assert (S1 : hstart cwd dirname = hstart cwd dest) by (apply hstart_pjoin, trim_relative).
  assert (C2 : pcomps file_path = (pcomps dest ++ q) ++ [n]) by (unfold file_path; rewrite pcomps_pjoin, C1, (pcomps_name n) by auto; reflexivity).
  assert (S2 : hstart cwd file_path = hstart cwd dest) by (unfold file_path; rewrite hstart_pjoin by auto; exact S1).
  assert (Hne : file_path <> []) by (apply pjoin_nonempty; [auto|apply Un]).
  assert (Hdl : dirlike file_path = false) by (unfold file_path; rewrite dirlike_pjoin by auto; apply name_dirlike; auto).
  assert (D1 : ~ In dotdot (pcomps dest ++ q)) by (rewrite in_app_iff; intros [Hi|Hi]; [apply Hd, Hi|apply (names_dotdot q Uq Hi)]).
  assert (D2 : ~ In dotdot ((pcomps dest ++ q) ++ [n])).
  { rewrite in_app_iff. intros [Hi|[Hi|[]]]; [apply D1, Hi|]. apply (names_dotdot [n]); [constructor; [auto|constructor]|left; exact Hi]. }
  assert (N1 : has_nul (pcomps dest ++ q) = false) by (rewrite has_nul_app, Hnul, names_nul by auto; reflexivity).
  assert (N2 : has_nul ((pcomps dest ++ q) ++ [n]) = false) by (rewrite has_nul_app, N1, names_nul; [reflexivity|constructor; [auto|constructor]]).
  assert (Hs : w_fs w (hstart cwd dest) = Some HDir) by (unfold hstart; destruct (is_absolute dest); [apply HR|exact Hcwd]).
  (* the directory *)
  assert (G1 : exists w1, create_dir_all cwd dirname w = (w1, Ok tt) /\ w_left w1 = None /\ dirs_on (w_fs w1) (hstart cwd dest) (pcomps dest ++ q)
    /\ paved (hstart cwd dest) (pcomps dest ++ q) (w_fs w) (w_fs w1)).
  { assert (P : paved (hstart cwd dest) (pcomps dest ++ q) (w_fs w) (w_fs (fst (create_dir_all cwd dirname w)))).
    { rewrite <- C1, <- S1. apply create_dir_all_paved. unfold no_dotdot. rewrite C1. exact D1. }
    destruct dirname as [|x s] eqn:Edn.
    - exists w. ssplit; [reflexivity|exact HL| |apply paved_refl]. rewrite <- C1. cbn. intros pre suf E Hp. symmetry in E. apply app_eq_nil in E as (-> & _). destruct Hp. reflexivity.
    - cbn [create_dir_all] in *. rewrite C1, S1 in *. destruct (mkdir_all_ok (hstart cwd dest) (pcomps dest ++ q) D1 N1 w HL HR Hs) as (w1 & M1 & L1 & D).
      + apply free_dirs; auto.
      + exists w1. ssplit; auto. rewrite M1 in P. exact P. }
  destruct G1 as (w1 & M1 & L1 & D & P).
  assert (R1 : rooted (w_fs w1)) by (eapply paved_rooted; eauto).
  assert (Hs1 : w_fs w1 (hstart cwd dest) = Some HDir) by (destruct (P (hstart cwd dest)) as [E|(E & _)]; congruence).
  assert (Hpar : w_fs w1 (loc ++ q) = Some HDir).
  { unfold loc, place. rewrite <- app_assoc. destruct (pcomps dest ++ q) as [|x l] eqn:El; [rewrite app_nil_r; exact Hs1|]. apply (D (x :: l) []); [rewrite app_nil_r; reflexivity|discriminate]. }
  assert (Eloc : loc ++ q ++ [n] = hstart cwd dest ++ (pcomps dest ++ q) ++ [n]) by (unfold loc, place; rewrite <- !app_assoc; reflexivity).
  assert (HN1 : w_fs w1 (loc ++ q ++ [n]) = None).
  { destruct (P (loc ++ q ++ [n])) as [E|(E1 & E2 & pre & suf & E3 & E4)]; [congruence|]. exfalso. rewrite Eloc in E4. apply app_inv_head in E4. subst pre.
    apply (f_equal (@length str)) in E3. rewrite !app_length in E3. cbn in E3. lia. }
  assert (Lead1 : forall z, leads_to z loc -> w_fs w1 z = Some HDir).
  { intros z (c & Ec). destruct (c ++ q) as [|x l] eqn:El.
    - apply app_eq_nil in El as (-> & ->). rewrite app_nil_r in *. subst z. exact Hpar.
    - apply (rooted_prefix _ z (x :: l) R1); [|discriminate]. rewrite <- El, app_assoc, <- Ec, Hpar. discriminate. }
  assert (Same1 : forall z, ~ leads_to z loc -> w_fs w1 z = w_fs w z).
  { intros z Hz. destruct (P z) as [E|(E1 & E2 & pre & suf & E3 & E4)]; [auto|]. destruct (prefix_two _ _ _ _ E3) as [(c & Ec)|(m & c & Ec)].
    - exfalso. apply Hz. exists c. subst z. unfold loc, place. rewrite Ec, app_assoc. reflexivity.
    - subst pre. rewrite <- app_assoc in E3. apply app_inv_head in E3. destruct Hq as [Hq|Hq]; [rewrite Hq in E3; discriminate|].
      assert (Hz' : w_fs w z = Some HDir).
      { subst z. rewrite app_assoc. fold loc. destruct suf as [|y suf]; [rewrite app_nil_r in E3; subst q; exact Hq|].
        apply (rooted_prefix _ (loc ++ m :: c) (y :: suf) HR); [|discriminate]. rewrite <- app_assoc, <- E3. rewrite Hq. discriminate. }
      congruence. }
  assert (Hxn : forall z, leads_to z loc -> z <> loc ++ q ++ [n]).
  { intros z (c & Ec) ->. apply (f_equal (@length str)) in Ec. rewrite !app_length in Ec. cbn in Ec. lia. }
  assert (Dp : dirs_on (w_fs w1) (hstart cwd dest) (pcomps dest ++ q)) by exact D.
  (* the entry *)
  assert (G2 : exists w2, (if is_directory (d_dirent (e_node e)) then create_dir cwd file_path
             else if d_namelen (d_dirent (e_node e)) =? 0 then hret tt
             else copy_file cwd file base file_path (d_region (d_dirent (e_node e)))) w1 = (w2, Ok tt) /\ w_left w2 = None
    /\ (forall z, w_fs w2 z = hset (w_fs w1) (loc ++ q ++ [n]) (node_of file base e) z)).
  { unfold node_of. change (is_directory (d_dirent (e_node e))) with (is_dir e). destruct (is_dir e) eqn:Edir.
    - unfold create_dir. destruct file_path as [|x s] eqn:Ef; [congruence|]. rewrite C2, S2, mkdir_new by (rewrite <- ?Eloc; auto).
      eexists. ssplit; [reflexivity|reflexivity|]. intros z. cbn [w_fs]. rewrite <- Eloc. reflexivity.
    - rewrite (proj2 (N.eqb_neq _ _) Hnl). unfold copy_file, hbind. rewrite (open_new _ _ _ _ _ Hne C2) by (rewrite ?S2, <- ?Eloc; auto; rewrite HN1; discriminate). rewrite S2, <- Eloc.
      change (d_region (d_dirent (e_node e))) with (region_of e). destruct (region_is_empty (region_of e)) eqn:Ee.
      + eexists. ssplit; [reflexivity|reflexivity|]. intros z. cbn [w_fs]. unfold region_is_empty in Ee. apply N.eqb_eq in Ee. unfold file_data. rewrite Ee. reflexivity.
      + rewrite write_new_ok by reflexivity. eexists. ssplit; [reflexivity|reflexivity|]. intros z. cbn [w_fs]. unfold hset. destruct (hpath_eqb z (loc ++ q ++ [n])); reflexivity. }
  destruct G2 as (w2 & M2 & L2 & F2). exists w2. ssplit.
  - unfold one_entry. fold dirname. fold file_path. unfold hbind. rewrite M1. exact M2.
  - exact L2.
  - assert (R2 : rooted (hset (w_fs w1) ((loc ++ q) ++ [n]) (node_of file base e))) by (apply rooted_hset; auto; rewrite <- app_assoc, HN1; discriminate).
    rewrite <- app_assoc in R2. destruct R2 as (A & B). split; [rewrite F2; exact A|]. intros p m. rewrite !F2. apply B.
  - rewrite F2. apply hset_eq.
  - intros z Hz. rewrite F2, hset_neq by (apply Hxn; exact Hz). apply Lead1. exact Hz.
  - intros z Hz Hz'. rewrite F2, hset_neq by exact Hz'. apply Same1. exact Hz.
Qed.

(** A loop that makes the entries [ys], one after the other. *)
Section Making.
Variables (cwd : list str) (file : list byte) (base : N) (dest : str) (X : Type) (loop : list X -> hprog unit) (mk : X -> path * hnode -> Prop).
Definition makes_one : Prop := forall x y, mk x y -> exists q n e, fst y = q ++ [n] /\ Forall unix_name (fst y)
  /\ d_namelen (d_dirent (e_node e)) <> 0 /\ snd y = node_of file base e
  /\ forall tree w, loop (x :: tree) w = hbind (one_entry cwd file base (pjoin dest (trim_start (slashed q))) n e) (fun _ => loop tree) w.
Hypothesis loop_nil : loop [] = hret tt.
Hypothesis loop_cons : makes_one.

Lemma copyout_all tree ys : no_dotdot dest -> has_nul (pcomps dest) = false -> Forall2 mk tree ys ->
  forall w, w_left w = None -> rooted (w_fs w) -> w_fs w cwd = Some HDir ->
  (forall z, leads_to z (place cwd dest) -> w_fs w z = None \/ w_fs w z = Some HDir) ->
  NoDup (map fst ys) -> (forall p x, In (p, x) ys -> w_fs w (place cwd dest ++ p) = None) ->
  (forall l1 y l2 q n, ys = l1 ++ y :: l2 -> fst y = q ++ [n] -> q = [] \/ w_fs w (place cwd dest ++ q) = Some HDir \/ In (q, HDir) l1) ->
  exists w', loop tree w = (w', Ok tt)
    /\ (forall p x, In (p, x) ys -> w_fs w' (place cwd dest ++ p) = Some x)
    /\ (forall z, leads_to z (place cwd dest) -> w_fs w' z = Some HDir \/ (ys = [] /\ w_fs w' z = w_fs w z))
    /\ (forall z, ~ leads_to z (place cwd dest) -> (forall p x, In (p, x) ys -> z <> place cwd dest ++ p) -> w_fs w' z = w_fs w z).
Proof.
  intros Hd Hnul HF. set (loc := place cwd dest). induction HF as [|x0 [p x] tree ys Hmk HF IH]; intros w HL HR Hcwd HP HN HA HO.
  - exists w. rewrite loop_nil. ssplit; auto. intros p x [].
  - destruct (loop_cons _ _ Hmk) as (q & n & e & E1 & E4 & E5 & E6 & Elp). cbn [fst snd] in *. subst p x. apply Forall_app in E4 as (Uq & Un). inversion Un as [|? ? Un1 _]; subst. inversion HN as [|? ? N1 N2]; subst.
    assert (Hfresh : w_fs w (loc ++ q ++ [n]) = None) by (apply (HA _ (node_of file base e)); left; reflexivity).
    assert (Hq : q = [] \/ w_fs w (loc ++ q) = Some HDir) by (destruct (HO [] _ ys q n eq_refl eq_refl) as [H|[H|[]]]; auto).
    destruct (copyout_step cwd file base dest q n e w Hd Hnul Uq Un1 E5 HL HR Hcwd HP Hq Hfresh) as (w1 & S1 & S2 & S3 & S4 & S5 & S6).
    fold loc in S4, S5, S6.
    assert (Hnl : forall m (r : list str), ~ leads_to (loc ++ r ++ [m]) loc).
    { intros m r (c & Ec). apply (f_equal (@length str)) in Ec. rewrite !app_length in Ec. cbn in Ec. lia. }
    assert (Hys : forall p' x', In (p', x') ys -> exists r m, p' = r ++ [m]).
    { clear -HF loop_cons. intros p' x' Hi. induction HF as [|? ? ? ? Hm HF IH]; [destruct Hi|]. destruct (loop_cons _ _ Hm) as (r & m & ? & F1 & _). destruct Hi as [->|Hi]; [exists r, m; exact F1|auto]. }
    assert (Hkeep : forall z, w_fs w z = Some HDir -> w_fs w1 z = Some HDir).
    { intros z Hz. destruct (hpath_eqb_spec z (loc ++ q ++ [n])) as [->|Hne]; [congruence|].
      assert (Dec : leads_to z loc \/ ~ leads_to z loc).
      { destruct (prefix_dec z loc) as [H|H]; [left|right]; exact H. }
      destruct Dec as [H|H]; [auto|]. rewrite S6 by auto. exact Hz. }
    destruct (IH w1) as (w2 & T1 & T2 & T3 & T4); auto.
    + intros p' x' Hi. destruct (Hys _ _ Hi) as (r & m & ->). rewrite S6; [apply (HA _ x'); right; exact Hi|apply Hnl|].
      intros Eq. apply app_inv_head in Eq. apply N1. rewrite <- Eq. apply (in_map fst) in Hi. exact Hi.
    + intros l1 y l2 q' n' El Ey. destruct (HO ((q ++ [n], node_of file base e) :: l1) y l2 q' n' ltac:(rewrite El; reflexivity) Ey) as [H|[H|[H|H]]]; auto.
      right. left. injection H as <- Hx. rewrite S4. rewrite Hx. reflexivity.
    + exists w2. ssplit.
      * rewrite Elp. unfold hbind. rewrite S1. exact T1.
      * intros p' x' [[= <- <-]|Hi]; [|apply T2; exact Hi]. rewrite T4; [exact S4|apply Hnl|].
        intros p' x' Hi Eq. apply app_inv_head in Eq. apply N1. rewrite Eq. apply (in_map fst) in Hi. exact Hi.
      * intros z Hz. left. destruct (T3 z Hz) as [H|(_ & H)]; [exact H|]. rewrite H. apply S5. exact Hz.
      * intros z Hz Hz'. rewrite T4; [apply S6; [exact Hz|apply (Hz' _ (node_of file base e)); left; reflexivity]|exact Hz|].
        intros p' x' Hi. apply (Hz' p' x'). right. exact Hi.
Qed.

Lemma making (Q : ftree -> hnode -> Prop) t out ns ys w : no_dotdot dest -> has_nul (pcomps dest) = false -> is_fdir t = true -> Q t HDir ->
  enumerates t ns -> Forall2 mk out ys -> map fst ys = map fst ns ->
  Forall2 (fun (z : path * ftree) (y : path * hnode) => fst y = fst z /\ Q (snd z) (snd y)) ns ys ->
  (forall l1 y l2 q n, ys = l1 ++ y :: l2 -> fst y = q ++ [n] -> q = [] \/ In (q, HDir) l1) ->
  w_left w = None -> rooted (w_fs w) -> w_fs w cwd = Some HDir -> free_place (w_fs w) (place cwd dest) ->
  t <> FDir [] \/ w_fs w (place cwd dest) = Some HDir ->
  exists w', loop out w = (w', Ok tt) /\ restored_as Q (place cwd dest) t (w_fs w) (w_fs w').
Proof.
  intros Hd Hnul Ht HQt (HN & HE) Y1 Y2 Y3 HO HL HR Hcwd (HP1 & HP2) Hc. set (loc := place cwd dest) in *.
  assert (Yin : forall p x, In (p, x) ys -> exists t', In (p, t') ns /\ Q t' x).
  { intros p x Hi. clear -Y3 Hi. induction Y3 as [|[pz tz] [py xy] ns ys (A & B) Y3 IH]; [destruct Hi|]. cbn [fst snd] in *. destruct Hi as [[= <- <-]|Hi].
    - exists tz. subst py. split; [left; reflexivity|exact B].
    - destruct (IH Hi) as (t' & H1 & H2). exists t'. split; [right; exact H1|exact H2]. }
  assert (Yof : forall p t', In (p, t') ns -> exists x, In (p, x) ys /\ Q t' x).
  { intros p t' Hi. clear -Y3 Hi. induction Y3 as [|[pz tz] [py xy] ns ys (A & B) Y3 IH]; [destruct Hi|]. cbn [fst snd] in *. destruct Hi as [[= <- <-]|Hi].
    - exists xy. subst py. split; [left; reflexivity|exact B].
    - destruct (IH Hi) as (x & H1 & H2). exists x. split; [right; exact H1|exact H2]. }
  assert (Ybelow : forall p x, In (p, x) ys -> strictly_below loc (loc ++ p)).
  { intros p x Hi. destruct (Yin _ _ Hi) as (t' & H1 & _). apply HE in H1 as (H1 & _). destruct p as [|n p]; [congruence|]. exists n, p. reflexivity. }
  destruct (copyout_all out ys Hd Hnul Y1 w HL HR Hcwd HP1) as (w' & W1 & W2 & W3 & W4).
  { rewrite Y2. exact HN. }
  { intros p x Hi. apply HP2. apply (Ybelow p x Hi). }
  { intros l1 y l2 q n E Ey. destruct (HO l1 y l2 q n E Ey) as [H|H]; auto. }
  fold loc in W2, W3, W4. exists w'. split; [exact W1|].
  assert (Lead : forall q, leads_to q loc -> w_fs w' q = Some HDir).
  { intros q Hq. destruct (W3 q Hq) as [H|(Hy & H)]; [exact H|]. rewrite H. destruct Hc as [Hc|Hc].
    - exfalso. subst ys. destruct t as [b|[|[n t] cs]]; [discriminate|congruence|]. assert (Hi : In ([n], t) ns).
      { apply HE. split; [discriminate|]. eapply at_child; [left; reflexivity|apply at_here]. }
      destruct (Yof _ _ Hi) as (x & [] & _).
    - destruct Hq as (c & Hq). destruct c as [|a c]; [rewrite app_nil_r in Hq; rewrite <- Hq; exact Hc|]. apply (rooted_prefix _ q (a :: c) HR); [|discriminate]. rewrite <- Hq, Hc. discriminate. }
  assert (Hbl : forall n p, ~ leads_to (loc ++ n :: p) loc).
  { intros n p (c & Ec). apply (f_equal (@length str)) in Ec. rewrite !app_length in Ec. cbn in Ec. lia. }
  split; [|split; [|split]].
  - intros p t' Hat. destruct p as [|n p].
    + inversion Hat; subst. exists HDir. rewrite app_nil_r. split; [|exact HQt]. apply Lead. exists []. rewrite app_nil_r. reflexivity.
    + destruct (Yof (n :: p) t') as (x & H1 & H2); [apply HE; split; [discriminate|exact Hat]|]. exists x. split; [apply W2; exact H1|exact H2].
  - intros p x Hx. destruct p as [|n p]; [exists t; apply at_here|].
    assert (Hin : In (n :: p) (map fst ns) \/ ~ In (n :: p) (map fst ns)).
    { destruct (in_dec (list_eq_dec str_dec) (n :: p) (map fst ns)); auto. }
    destruct Hin as [Hin|Hin].
    + apply in_map_iff in Hin as ([p' t'] & Ep & Hi). cbn [fst] in Ep. subst p'. exists t'. apply HE. exact Hi.
    + exfalso. rewrite W4 in Hx; [|apply Hbl|].
      * rewrite HP2 in Hx; [discriminate|exists n, p; reflexivity].
      * intros p' x' Hi Eq. apply app_inv_head in Eq. apply Hin. rewrite <- Y2, Eq. apply (in_map fst) in Hi. exact Hi.
  - exact Lead.
  - intros q Hq1 Hq2. apply W4; [exact Hq2|]. intros p x Hi ->. apply Hq1. apply (Ybelow p x Hi).
Qed.
End Making.

Definition to_make (file : list byte) (base : N) (x : str * dentry) (y : path * hnode) : Prop :=
  exists q n, fst y = q ++ [n] /\ fst x = slashed q /\ name_str (snd x) = n /\ Forall unix_name (fst y)
    /\ d_namelen (d_dirent (e_node (snd x))) <> 0 /\ snd y = node_of file base (snd x).
Lemma copyout_makes cwd file base dest : makes_one cwd file base dest (str * dentry) (copyout_loop cwd file base dest) (to_make file base).
Proof.
  intros [dir e] y (q & n & E1 & E2 & E3 & E4 & E5 & E6). cbn [fst snd] in *. subst dir. exists q, n, e. ssplit; auto. intros tree w. cbn [copyout_loop]. cbv zeta. rewrite E3.
  unfold one_entry, hbind. destruct (create_dir_all cwd (pjoin dest (trim_start (slashed q))) w) as (w1 & [?|?|?|]); reflexivity.
Qed.

Lemma unix_paths t p t' : unix_tree t -> at_path t p t' -> Forall unix_name p.
Proof.
  intros HU H. induction H as [t|cs n t p t' Hin Hat IH]; constructor.
  - apply (HU [] cs (at_here _)). apply (in_map fst) in Hin. exact Hin.
  - apply IH. intros q cs' Hq. apply (HU (n :: q)). eapply at_child; eauto.
Qed.
Lemma unnamed e : d_namelen (d_dirent (e_node e)) = 0 -> name_str e = [].
Proof. intros H. unfold name_str, name_slice. rewrite H. reflexivity. Qed.
Lemma firstn_skipn_comm' {A} (k o : nat) (l : list A) : skipn o (firstn k l) = firstn (k - o) (skipn o l).
Proof. rewrite skipn_firstn_comm. reflexivity. Qed.
Lemma data_cut file k base r : exists b2, file_data file base r = file_data (firstn k file) base r ++ b2.
Proof.
  unfold file_data, slice. set (o := N.to_nat (base + 2048 * r_sector r)). set (n := N.to_nat (r_size r)).
  rewrite skipn_firstn_comm, firstn_firstn. set (j := Nat.min n (k - o)). exists (skipn j (firstn n (skipn o file))).
  assert (E : firstn j (skipn o file) = firstn j (firstn n (skipn o file))) by (rewrite firstn_firstn; f_equal; unfold j; lia). rewrite E. symmetry. apply firstn_skipn.
Qed.
Lemma data_contained file base b r : contains (offset_dev (file_dev file) base) (FFile b) r -> file_data file base r = b.
Proof.
  intros H. inversion H as [b' r' Hs Hd| |]; subst. unfold file_data. rewrite Hs. destruct b as [|x b]; [reflexivity|]. specialize (Hd ltac:(discriminate)).
  unfold offset_dev, file_dev in Hd. destruct (len (x :: b) =? 0); [discriminate|]. destruct (2048 * r_sector r + base + len (x :: b) <=? len file); [|discriminate].
  injection Hd as Hd. rewrite (N.add_comm base). exact Hd.
Qed.

Lemma unpack_list d t r : lawful d -> is_fdir t = true -> contains d t r ->
  exists out ns, returns (fun fuel => file_tree fuel d r) (Ok out) /\ enumerates t ns /\ Forall2 (node_ok d r []) out ns.
Proof.
  intros HL Ht HC. destruct (contains_nodes d t [] r Ht HC) as (l & L1 & L2). destruct (file_tree_lemma _ _ _ HL L1) as (out & O1 & O2).
  destruct (fits_order _ _ _ _ _ _ O1 L2) as (ns & P & F). exists out, ns. ssplit; auto. eapply enumerates_perm; [exact P|]. apply nodes_enumerates. eapply contains_proper. exact HC.
Qed.

Lemma to_make_all file base d r t out ns : unix_tree t -> (forall p t', In (p, t') ns -> at_path t p t') -> Forall2 (node_ok d r []) out ns ->
  exists ys, Forall2 (to_make file base) out ys /\ map fst ys = map fst ns
    /\ Forall2 (fun (z : path * ftree) (y : path * hnode) => fst y = fst z /\ exists e, entry_is d e (snd z) /\ snd y = node_of file base e) ns ys.
Proof.
  intros HU HI HF. induction HF as [|[dir e] [p t'] out ns (q & E1 & E2 & E3 & E4) HF IH]; [exists []; ssplit; constructor|]. cbn [fst snd app] in *.
  destruct IH as (ys & Y1 & Y2 & Y3); [intros p' t'' Hi; apply HI; right; exact Hi|].
  assert (U : Forall unix_name p) by (eapply unix_paths; [exact HU|apply HI; left; reflexivity]).
  exists ((p, node_of file base e) :: ys). ssplit.
  - constructor; [|exact Y1]. exists q, (name_str e). cbn [fst snd]. ssplit; auto. intros Hz. rewrite E1 in U. apply Forall_app in U as (_ & U). inversion U as [|? ? U1 _]; subst.
    apply unnamed in Hz. destruct U1 as (U1 & _). auto.
  - cbn [map fst]. f_equal. exact Y2.
  - constructor; [|exact Y3]. cbn [fst snd]. split; [reflexivity|]. exists e. auto.
Qed.

Lemma made_parents file base out ys : parents_first out -> Forall2 (to_make file base) out ys ->
  forall l1 y l2 q n, ys = l1 ++ y :: l2 -> fst y = q ++ [n] -> q = [] \/ In (q, HDir) l1.
Proof.
  intros HO HF l1 y l2 q n -> Ey. apply Forall2_app_inv_r in HF as (o1 & o2 & F1 & F2 & ->). inversion F2 as [|x ? o3 ? (q0 & n0 & X1 & X2 & X3 & X4 & _) F3]; subst.
  rewrite X1 in Ey. apply app_inj_tail in Ey as (-> & _). rewrite X1 in X4. apply Forall_app in X4 as (Uq & _).
  assert (K : forall l : list str, Forall unix_name l -> Forall (fun n => ~ In 47 n) l) by (intros l Hl; eapply Forall_impl; [|exact Hl]; intros a Ha; apply Ha).
  destruct (HO o1 x o3 eq_refl) as [E|(p' & e' & Hin & Hd & E)]; rewrite X2 in E.
  - left. destruct q; [reflexivity|]. rewrite slashed_cons in E. discriminate.
  - right. apply in_split in Hin as (a & b & ->). apply Forall2_app_inv_l in F1 as (c1 & c2 & G1 & G2 & ->). inversion G2 as [|? y' ? c3 (q' & n' & Y1 & Y2 & Y3 & Y4 & Y5 & Y6) G3]; subst. cbn [fst snd] in *.
    rewrite Y2, slashed_snoc in E. assert (Eq : q = fst y') by (rewrite Y1; apply slashed_inj; auto; apply K; rewrite <- Y1; exact Y4).
    apply in_or_app. right. left. destruct y' as [py xy]. cbn [fst snd] in *. subst py xy. f_equal; [symmetry; exact Eq|]. unfold node_of. rewrite Hd. reflexivity.
Qed.

Section Unpack.
Variables (Q : ftree -> hnode -> Prop) (file : list byte) (base : N).
Variable d : dev.
Hypothesis HQ : forall e t, entry_is d e t -> Q t (node_of file base e).

Lemma unpack_all cwd dest r t out ns w : no_dotdot dest -> has_nul (pcomps dest) = false -> is_fdir t = true -> Q t HDir -> unix_tree t ->
  enumerates t ns -> Forall2 (node_ok d r []) out ns -> parents_first out ->
  w_left w = None -> rooted (w_fs w) -> w_fs w cwd = Some HDir -> free_place (w_fs w) (place cwd dest) ->
  t <> FDir [] \/ w_fs w (place cwd dest) = Some HDir ->
  exists w', copyout_loop cwd file base dest out w = (w', Ok tt) /\ restored_as Q (place cwd dest) t (w_fs w) (w_fs w').
Proof.
  intros Hd Hnul Ht HQt HU HE HF HO HL HR Hcwd HP Hc.
  destruct (to_make_all file base d r t out ns HU) as (ys & Y1 & Y2 & Y3); [intros p t' Hi; apply HE; exact Hi|exact HF|].
  apply (making cwd file base dest _ _ (to_make file base) eq_refl (copyout_makes cwd file base dest) Q t out ns ys); auto.
  - clear -Y3 HQ. induction Y3 as [|z y ns ys (A & e & B & C) Y3 IH]; constructor; auto. split; [exact A|]. rewrite C. apply HQ. exact B.
  - apply made_parents with (1 := HO) (2 := Y1).
Qed.
End Unpack.

Lemma c48_dir file base d cwd dest r t w : d = offset_dev (file_dev file) base -> lawful d -> contains d t r -> is_fdir t = true -> unix_tree t ->
  ready_for cwd dest t w ->
  exists w', returns (fun fuel => copyout_directory fuel cwd file base dest r w) (w', Ok tt) /\ restored (place cwd dest) t (w_fs w) (w_fs w').
Proof.
  intros Ed HL HC Ht HU (HwL & HR & Hcwd & Hd & Hnul & HP & Hc). apply no_nul in Hnul. destruct (unpack_list d t r HL Ht HC) as (out & ns & (n & O) & HE & HF).
  assert (HO : parents_first out) by (eapply file_tree_order; apply (O n); lia).
  destruct (unpack_all (fun t x => x = as_node t) file base d) with (cwd := cwd) (dest := dest) (r := r) (t := t) (out := out) (ns := ns) (w := w) as (w' & W1 & W2); auto.
  - intros e t' (E1 & E2). unfold node_of. rewrite E1. destruct t' as [b|cs]; [|reflexivity]. cbn [is_fdir as_node]. rewrite Ed in E2. rewrite (data_contained _ _ _ _ E2). reflexivity.
  - destruct t; [discriminate|reflexivity].
  - exists w'. split; [|exact W2]. exists n. intros k Hk. unfold copyout_directory, uread. rewrite <- Ed, (O k Hk). unfold uhost. rewrite W1. reflexivity.
Qed.

Lemma open_image_base file d : open_image file = Ok d -> exists base, offset_wrapper_new (file_dev file) = Ok base /\ d = offset_dev (file_dev file) base.
Proof. unfold open_image. destruct (offset_wrapper_new (file_dev file)) as [base| | |]; try discriminate. intros [= <-]. eauto. Qed.

Lemma c47_lemma fuel cwd image_path file dest w : no_dotdot dest -> lists_harmless fuel file ->
  stays_below (place cwd dest) (w_fs w) (w_fs (fst (cmd_unpack fuel cwd image_path file (Some dest) w))).
Proof.
  intros Hd HN. unfold cmd_unpack, unpack_target, uread. destruct (offset_wrapper_new (file_dev file)) as [base|e|e|] eqn:Eb; try apply stays_refl.
  destruct (read_volume (offset_dev (file_dev file) base)) as [v|e|e|] eqn:Ev; try apply stays_refl. apply c47_dir; auto.
  intros tree Et. apply (HN _ v tree) in Et; auto. unfold open_image. rewrite Eb. reflexivity.
Qed.

Lemma c48_lemma cwd image_path file dest t w : is_image file t -> unix_tree t -> ready_for cwd dest t w ->
  exists w', returns (fun fuel => cmd_unpack fuel cwd image_path file (Some dest) w) (w', Ok tt) /\ restored (place cwd dest) t (w_fs w) (w_fs w').
Proof.
  intros (d & r & Ho & (v & Hv & ->) & Ht & HC) HU HW. pose proof (image_lawful _ _ Ho) as HL. destruct (open_image_base _ _ Ho) as (base & Hb & Ed).
  destruct (c48_dir file base d cwd dest (v_root v) t w Ed HL HC Ht HU HW) as (w' & (n & R) & W). exists w'. split; [|exact W]. exists n. intros k Hk.
  unfold cmd_unpack, unpack_target, uread. rewrite Hb, <- Ed, Hv. apply R. exact Hk.
Qed.

(** ** Copying out *)
Lemma selects_not_slash t path n t' : selects t path n t' -> str_eqb path [SLASH] = false.
Proof.
  intros (segs & HP & _). destruct (str_eqb path [SLASH]) eqn:Ep; auto. apply str_eqb_spec in Ep. subst path. exfalso.
  destruct HP as (k0 & trail & Ep & HS & Hne & Hhd & _). destruct segs as [|s segs]; [congruence|]. cbn [hd] in Hhd.
  destruct s as [|c s]; [congruence|]. inversion HS as [|? ? N1 _]; subst.
  assert (Hc : In c [SLASH]). { rewrite Ep. rewrite !in_app_iff. right. left. destruct segs; cbn; auto. }
  destruct Hc as [<-|[]]. apply N1. cbn. auto.
Qed.

Lemma at_app t p t' q t'' : at_path t p t' -> at_path t' q t'' -> at_path t (p ++ q) t''.
Proof. induction 1 as [|cs n t p t' Hin Hat IH]; intros H; [exact H|]. cbn [app]. eapply at_child; eauto. Qed.
Lemma c70_dir cwd file src dest t cs w : is_image file t -> unix_tree t -> selects_dir t src cs -> ready_for cwd dest (FDir cs) w ->
  exists w', returns (fun fuel => cmd_copyout fuel cwd file src dest w) (w', Ok tt) /\ restored (place cwd dest) (FDir cs) (w_fs w) (w_fs w').
Proof.
  intros (d & r & Ho & (v & Hv & ->) & Ht & HC) HU HS HW. pose proof (image_lawful _ _ Ho) as HL. destruct (open_image_base _ _ Ho) as (base & Hb & Ed).
  destruct HS as [(-> & ->)|(n & HS)].
  - destruct (c48_dir file base d cwd dest (v_root v) _ w Ed HL HC Ht HU HW) as (w' & (k0 & R) & W). exists w'. split; [|exact W]. exists k0. intros k Hk.
    unfold cmd_copyout, uread. rewrite Hb, <- Ed, Hv. apply R. exact Hk.
  - pose proof (selects_not_slash _ _ _ _ HS) as Hsl. destruct HS as (segs & HPa & HN). destruct (contains_found d _ _ _ _ HN _ HC) as (e & L & E1 & E2 & E3).
    destruct (c31_lemma _ _ _ _ _ HL HPa L) as (k0 & Hk0).
    assert (HU' : unix_tree (FDir cs)).
    { destruct (names_path _ _ _ _ HN) as (p & Hp & _). intros q cs' Hq. apply (HU (p ++ q)). eapply at_app; eauto. }
    destruct (c48_dir file base d cwd dest (region_of e) _ w Ed HL E3 eq_refl HU' HW) as (w' & (k1 & R) & W). exists w'. split; [|exact W]. exists (Nat.max k0 k1). intros k Hk.
    unfold cmd_copyout, uread. rewrite Hb, <- Ed, Hv, Hsl, (Hk0 k) by lia. rewrite is_dir_table, E2. apply R. lia.
Qed.

Lemma c70_file cwd file src dest t n b w : is_image file t -> selects t src n (FFile b) -> ready_for_file cwd dest w ->
  exists w', returns (fun fuel => cmd_copyout fuel cwd file src dest w) (w', Ok tt)
    /\ forall q, w_fs w' q = if hpath_eqb q (place cwd dest) then Some (HFile b) else w_fs w q.
Proof.
  intros (d & r & Ho & (v & Hv & ->) & Ht & HC) HS (HwL & HR & Hd & Hnul & Hdl & dir & nm & Hpl & Hdir & Hfi). apply no_nul in Hnul. pose proof (image_lawful _ _ Ho) as HL. destruct (open_image_base _ _ Ho) as (base & Hb & Ed).
  pose proof (selects_not_slash _ _ _ _ HS) as Hsl. destruct HS as (segs & HPa & HN). destruct (contains_found d _ _ _ _ HN _ HC) as (e & L & E1 & E2 & E3).
  destruct (c31_lemma _ _ _ _ _ HL HPa L) as (k0 & Hk0).
  assert (Hne : dest <> []) by (intros ->; discriminate).
  destruct (split_last_case (pcomps dest)) as [(Ec & _)|(i & c & Ec & _)]; [apply no_comps_dirlike in Ec; congruence|].
  assert (Edir : hstart cwd dest ++ i = dir /\ c = nm) by (unfold place in Hpl; rewrite Ec, app_assoc in Hpl; apply app_inj_tail in Hpl; exact Hpl). destruct Edir as (<- & <-).
  assert (O : open_trunc cwd dest w = (mkWorld (hset (w_fs w) (hstart cwd dest ++ i ++ [c]) (HFile [])) None, Ok (hstart cwd dest ++ i ++ [c]))).
  { apply open_new; auto; [rewrite <- Ec; exact Hd|rewrite <- Ec; exact Hnul|apply rooted_dirs_on; auto|rewrite app_assoc; exact Hfi]. }
  assert (C : exists w', copy_file cwd file base dest (region_of e) w = (w', Ok tt) /\ forall q, w_fs w' q = if hpath_eqb q (place cwd dest) then Some (HFile b) else w_fs w q).
  { unfold copy_file, hbind. rewrite O. rewrite Ed in E3. pose proof (data_contained _ _ _ _ E3) as Hb'. rewrite Hpl, <- app_assoc. destruct (region_is_empty (region_of e)) eqn:Ee.
    - eexists. split; [reflexivity|]. intros q. cbn [w_fs]. unfold region_is_empty in Ee. apply N.eqb_eq in Ee. unfold file_data in Hb'. rewrite Ee in Hb'. cbn in Hb'. rewrite <- Hb'. reflexivity.
    - rewrite write_new_ok, Hb' by reflexivity. eexists. split; [reflexivity|]. intros q. cbn [w_fs]. unfold hset. destruct (hpath_eqb q (hstart cwd dest ++ i ++ [c])); reflexivity. }
  destruct C as (w' & C1 & C2). exists w'. split; [|exact C2]. exists k0. intros k Hk.
  unfold cmd_copyout, uread. rewrite Hb, <- Ed, Hv, Hsl, (Hk0 k Hk). rewrite is_dir_table, E2. cbn [is_fdir]. unfold uhost. change (d_region (d_dirent (e_node e))) with (region_of e). rewrite C1. reflexivity.
Qed.

(** ** Truncated images *)
Lemma cut_opens k file d v : read_volume (offset_dev (file_dev file) 0) = Ok v -> open_image (firstn k file) = Ok d -> d = offset_dev (file_dev (firstn k file)) 0.
Proof.
  intros Hv Ho. apply open_image_base in Ho as (base & Hb & ->). unfold offset_wrapper_new, XDVD_OFFSETS in Hb. cbn [probe] in Hb.
  destruct (read_volume (offset_dev (file_dev (firstn k file)) 0)) as [v'|e|e|] eqn:E0; try discriminate; [injection Hb as <-; reflexivity|]. exfalso.
  assert (Hok : exists b0 v0, read_volume (offset_dev (file_dev (firstn k file)) b0) = Ok v0).
  { destruct (read_volume (offset_dev (file_dev (firstn k file)) 405798912)) as [v1| | |] eqn:E1; try discriminate; [eauto|].
    destruct (read_volume (offset_dev (file_dev (firstn k file)) 265879552)) as [v2| | |] eqn:E2; try discriminate; [eauto|].
    destruct (read_volume (offset_dev (file_dev (firstn k file)) 34078720)) as [v3| | |] eqn:E3; try discriminate; eauto. }
  destruct Hok as (b0 & v0 & H0). assert (Hlen : 65536 + 2048 <= len (firstn k file)).
  { unfold read_volume, offset_dev, file_dev in H0. change (2048 =? 0) with false in H0. cbn [map_err] in H0.
    destruct (N.leb_spec (SECTOR_SIZE * 32 + b0 + 2048) (len (firstn k file))) as [H|H]; [unfold SECTOR_SIZE in H; lia|discriminate]. }
  assert (Hsame : offset_dev (file_dev (firstn k file)) 0 (SECTOR_SIZE * 32) 2048 = offset_dev (file_dev file) 0 (SECTOR_SIZE * 32) 2048).
  { destruct (offset_dev (file_dev (firstn k file)) 0 (SECTOR_SIZE * 32) 2048) as [b| | |] eqn:E; [symmetry; apply (offset_mono _ _ 0 (cut_mono k file)); exact E| | |];
      unfold offset_dev, file_dev in E; change (2048 =? 0) with false in E; destruct (N.leb_spec (SECTOR_SIZE * 32 + 0 + 2048) (len (firstn k file))) as [H|H]; try discriminate; unfold SECTOR_SIZE in H; lia. }
  unfold read_volume in Hv, E0. rewrite Hsame in E0. rewrite Hv in E0. discriminate.
Qed.

Lemma c49_lemma m t img k fuel cwd image_path dest w w' : source t -> packs m t img -> unix_tree t -> ready_for cwd dest t w ->
  cmd_unpack fuel cwd image_path (firstn k img) (Some dest) w = (w', Ok tt) -> restored_in_part (place cwd dest) t (w_fs w) (w_fs w').
Proof.
  intros Hs Hp HU HW HR. destruct (packed_opens m t img Hs Hp) as (v & Hv & (Ho & (v1 & Hv1 & Ev1) & Ht & HC)). pose proof (image_lawful _ _ Ho) as HL.
  unfold cmd_unpack, unpack_target, uread in HR. destruct (offset_wrapper_new (file_dev (firstn k img))) as [base| | |] eqn:Eb; try discriminate.
  assert (Ed : offset_dev (file_dev (firstn k img)) base = offset_dev (file_dev (firstn k img)) 0).
  { apply (cut_opens k img _ v1 Hv1). unfold open_image. rewrite Eb. reflexivity. }
  rewrite Ed in HR. destruct (read_volume (offset_dev (file_dev (firstn k img)) 0)) as [v2| | |] eqn:E2; try discriminate.
  assert (Hle : dle (offset_dev (file_dev (firstn k img)) 0) (offset_dev (file_dev img) 0)) by apply offset_mono, cut_mono.
  pose proof (read_volume_mono _ _ Hle _ E2) as E2'. rewrite Hv1 in E2'. injection E2' as <-.
  unfold copyout_directory, uread in HR. rewrite Ed in HR. destruct (file_tree fuel (offset_dev (file_dev (firstn k img)) 0) (v_root v1)) as [tree| | |] eqn:Et; try discriminate.
  rewrite Ev1 in HC. destruct (unpack_list _ t (v_root v1) HL Ht HC) as (out & ns & (n & O) & HE & HF).
  assert (Eo : tree = out).
  { pose proof (file_tree_mono _ _ Hle fuel (Nat.max n fuel) _ _ ltac:(lia) Et) as M. rewrite O in M by lia. injection M as <-. reflexivity. }
  subst tree. assert (HO : parents_first out) by (eapply file_tree_order; exact Et).
  destruct HW as (HwL & HRt & Hcwd & Hd & Hnul & HP & Hc). apply no_nul in Hnul.
  assert (Hbase : base = 0).
  { unfold offset_wrapper_new, XDVD_OFFSETS in Eb. cbn [probe] in Eb. rewrite E2 in Eb. injection Eb as <-. reflexivity. }
  subst base.
  destruct (unpack_all (fun t x => match t with FDir _ => x = HDir | FFile b => exists b1 b2, b = b1 ++ b2 /\ x = HFile b1 end) (firstn k img) 0 (offset_dev (file_dev img) 0))
    with (cwd := cwd) (dest := dest) (r := v_root v1) (t := t) (out := out) (ns := ns) (w := w) as (w1 & W1 & W2); auto.
  - intros e t' (E1 & E3). unfold node_of. rewrite E1. destruct t' as [b|cs]; [|reflexivity]. cbn [is_fdir]. pose proof (data_contained _ _ _ _ E3) as Hb.
    destruct (data_cut img k 0 (region_of e)) as (b2 & Hcut). exists (file_data (firstn k img) 0 (region_of e)), b2. rewrite <- Hcut, Hb. auto.
  - destruct t; [discriminate|reflexivity].
  - unfold uhost in HR. rewrite W1 in HR. injection HR as <-. exact W2.
Qed.

(** ** Harmless images *)
Lemma unix_harmless n : unix_name n -> harmless n.
Proof.
  intros H. split.
  - intros n' ->. destruct H as (_ & _ & _ & H & _). apply H. left. reflexivity.
  - rewrite pcomps_name by exact H. intros [E|[]]. destruct H as (_ & _ & H & _). auto.
Qed.
Lemma harmless_image fuel file t : is_image file t -> every_dir (fun cs => forall n, In n (map fst cs) -> harmless n) t -> lists_harmless fuel file.
Proof.
  intros (d & r & Ho & (v & Hv & ->) & Ht & HC) HH d' v' tree Ho' Hv' Et. rewrite Ho in Ho'. injection Ho' as <-. rewrite Hv in Hv'. injection Hv' as <-.
  destruct (unpack_list d t (v_root v) (image_lawful _ _ Ho) Ht HC) as (out & ns & (n & O) & (_ & HE) & HF).
  pose proof (file_tree_mono _ _ (dle_refl d) fuel (Nat.max n fuel) _ _ ltac:(lia) Et) as M. rewrite O in M by lia. injection M as <-.
  assert (HI : forall p t', In (p, t') ns -> at_path t p t') by (intros p t' Hi; apply HE; exact Hi). clear -HF HI HH.
  induction HF as [|[dir e] [p t'] out ns (q & E1 & E2 & E3 & E4) HF IH]; constructor; [|apply IH; intros p' t'' Hi; apply HI; right; exact Hi]. cbn [fst snd] in *.
  specialize (HI p t' (or_introl eq_refl)). subst p. clear -HI HH. revert t HI HH. induction q as [|a q IHq]; intros t HI HH; inversion HI as [|cs ? t1 ? ? Hin Hat]; subst.
  - apply (HH [] cs (at_here _)). apply (in_map fst) in Hin. exact Hin.
  - apply (IHq t1); auto. intros p cs' Hp. apply (HH (a :: p)). eapply at_child; eauto.
Qed.
Lemma c47_image fuel cwd image_path file dest t w : no_dotdot dest -> is_image file t -> unix_tree t ->
  stays_below (place cwd dest) (w_fs w) (w_fs (fst (cmd_unpack fuel cwd image_path file (Some dest) w))).
Proof.
  intros Hd HI HU. apply c47_lemma; auto. eapply harmless_image; [exact HI|]. intros p cs Hp n Hn. apply unix_harmless. apply (HU p cs Hp n Hn).
Qed.

Definition unix_name_b (n : str) : bool :=
  negb (match n with [] => true | _ => false end) && negb (str_eqb n [46]) && negb (str_eqb n [46; 46]) && negb (existsb (N.eqb 47) n) && negb (existsb (N.eqb 0) n).
Lemma existsb_not x n : negb (existsb (N.eqb x) n) = true -> ~ In x n.
Proof. intros H Hi. apply negb_true_iff in H. assert (existsb (N.eqb x) n = true); [|congruence]. apply existsb_exists. exists x. split; auto. apply N.eqb_refl. Qed.
Lemma unix_name_b_ok n : unix_name_b n = true -> unix_name n.
Proof.
  unfold unix_name_b. rewrite !andb_true_iff. intros ((((A & B) & C) & D) & E). unfold unix_name. ssplit; try (apply existsb_not; assumption).
  - intros ->. discriminate.
  - intros ->. discriminate.
  - intros ->. discriminate.
Qed.
Lemma unix_tree_ok t : dirs_b (fun cs => forallb unix_name_b (map fst cs)) t = true -> unix_tree t.
Proof.
  apply dirs_b_ok. intros cs H n Hn. rewrite forallb_forall in H. apply unix_name_b_ok. auto.
Qed.

(** A file system with nothing but some directories. *)
Definition bare (dirs : list (list str)) : world := mkWorld (fun q => if existsb (hpath_eqb q) dirs then Some HDir else None) None.
Lemma bare_ready t n : unix_name n -> t <> FDir [] -> ready_for [] n t (bare [[]]).
Proof.
  intros Un Ht. pose proof (pcomps_name n Un) as Ec. assert (Ep : place [] n = [n]) by (unfold place, hstart; rewrite Ec; destruct (is_absolute n); reflexivity).
  unfold ready_for. rewrite Ep. ssplit.
  - reflexivity.
  - split; [reflexivity|]. intros p m. cbn. destruct (hpath_eqb_spec (p ++ [m]) []) as [E|E]; [destruct p; discriminate|]. destruct (hpath_eqb (p ++ [m]) []) eqn:E'; [|cbn; congruence].
    destruct (hpath_eqb_spec (p ++ [m]) []); [contradiction|discriminate].
  - reflexivity.
  - unfold no_dotdot. rewrite Ec. intros [E|[]]. destruct Un as (_ & _ & Un & _). auto.
  - apply Un.
  - split; intros q; cbn.
    + intros _. destruct (hpath_eqb q []); [right|left]; reflexivity.
    + intros (a & p & ->). reflexivity.
  - left. exact Ht.
Qed.
