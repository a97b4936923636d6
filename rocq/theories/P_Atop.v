(** Proofs about unpacking over something that is there (C155). *)
From Verif Require Import M_Base M_Util M_Layout M_Read M_Img M_Cli M_Host M_Unpack S_Codec S_Read S_Img S_Check S_Cli S_Unpack S_Atop.
From Verif Require Import P_Base P_Find P_Src P_Check P_Cli P_Mono P_Host P_Unpack P_Exiso.
From Coq Require Import Init.Byte Lia Permutation.
From Verif Require Import M_Host.
Local Open Scope N_scope.

Lemma mkdir_done start cs w w' : ~ In dotdot cs -> mkdir start cs w = (w', Ok tt) ->
  w_fs w (start ++ cs) = None /\ w_fs w' = hset (w_fs w) (start ++ cs) HDir.
Proof.
  intros Hd. unfold mkdir. destruct (has_nul cs); [discriminate|]. pose proof (hlocate_case (w_fs w) start cs Hd) as L.
  destruct (hlocate (w_fs w) start cs) as [[d [c|]]|e|e|]; try discriminate. destruct L as (i & -> & ->). rewrite <- app_assoc.
  destruct (w_fs w (start ++ i ++ [c])) eqn:E; [discriminate|]. destruct (spend w 1 <? 1); [discriminate|]. intros [= <-]. split; [auto|reflexivity].
Qed.
Lemma write_done p b w w' : write_new p b w = (w', Ok tt) -> w_fs w' = hset (w_fs w) p (HFile b).
Proof.
  unfold write_new. destruct (spend w (len b) <? len b) eqn:E; [discriminate|]. intros [= <-]. apply N.ltb_ge in E. unfold after. cbn [w_fs]. f_equal. f_equal.
  unfold slice. cbn [N.to_nat skipn]. apply firstn_all2. unfold len in E |- *. lia.
Qed.

(** One entry [y] was put below [loc]; [q] is its directory. *)
Definition put (loc : list str) (y : path * hnode) (h h' : host) : Prop :=
  h' (loc ++ fst y) = Some (snd y) /\ (snd y = HDir -> h (loc ++ fst y) = None) /\ (snd y <> HDir -> h (loc ++ fst y) <> Some HDir)
  /\ forall z, z <> loc ++ fst y -> h' z = h z \/ (h z = None /\ h' z = Some HDir /\ (leads_to z loc \/ exists n r s, z = loc ++ n :: r /\ fst y = (n :: r) ++ s)).

Lemma put_step cwd file base dest x y tree w w' : no_dotdot dest -> to_make file base x y ->
  copyout_loop cwd file base dest (x :: tree) w = (w', Ok tt) ->
  exists w1, copyout_loop cwd file base dest tree w1 = (w', Ok tt) /\ put (place cwd dest) y (w_fs w) (w_fs w1).
Proof.
  intros Hd (q & n & Ey & Ex & En & Uy & Hnl & Es). destruct x as [dir e], y as [py xy]. cbn [fst snd] in *. subst py dir xy. apply Forall_app in Uy as (Uq & Un). inversion Un as [|? ? Un1 _]. clear Un H H0 l x.
  set (loc := place cwd dest). cbn [copyout_loop]. cbv zeta. rewrite En. set (dirname := pjoin dest (trim_start (slashed q))). set (file_path := pjoin dirname n).
  assert (Rn : is_absolute n = false) by (apply name_relative; apply Un1).
  assert (C1 : pcomps dirname = pcomps dest ++ q) by (unfold dirname; rewrite pcomps_pjoin by apply trim_relative; rewrite trim_comps, pcomps_slashed by auto; reflexivity).
  assert (S1 : hstart cwd dirname = hstart cwd dest) by (apply hstart_pjoin, trim_relative).
  assert (C2 : pcomps file_path = (pcomps dest ++ q) ++ [n]) by (unfold file_path; rewrite pcomps_pjoin, C1, (pcomps_name n) by auto; reflexivity).
  assert (S2 : hstart cwd file_path = hstart cwd dest) by (unfold file_path; rewrite hstart_pjoin by auto; exact S1).
  assert (D1 : ~ In dotdot (pcomps dest ++ q)) by (rewrite in_app_iff; intros [Hi|Hi]; [apply Hd, Hi|apply (names_dotdot q Uq Hi)]).
  assert (D2 : ~ In dotdot ((pcomps dest ++ q) ++ [n])).
  { rewrite in_app_iff. intros [Hi|[Hi|[]]]; [apply D1, Hi|]. apply (names_dotdot [n]); [constructor; [auto|constructor]|left; exact Hi]. }
  assert (Eloc : loc ++ q ++ [n] = hstart cwd dest ++ (pcomps dest ++ q) ++ [n]) by (unfold loc, place; rewrite <- !app_assoc; reflexivity).
  assert (P : paved (hstart cwd dest) (pcomps dest ++ q) (w_fs w) (w_fs (fst (create_dir_all cwd dirname w)))).
  { rewrite <- C1, <- S1. apply create_dir_all_paved. unfold no_dotdot. rewrite C1. exact D1. }
  unfold hbind at 1. destruct (create_dir_all cwd dirname w) as [w1 [[]|e1|e1|]] eqn:M1; try discriminate. cbn [fst] in P.
  match goal with |- hbind ?g _ _ = _ -> _ => set (act := g) end.
  unfold hbind at 1. destruct (act w1) as [w2 [[]|e2|e2|]] eqn:M2; try discriminate. intros H. exists w2. split; [exact H|]. clear H tree w'.
  assert (K : (forall z, w_fs w2 z = hset (w_fs w1) (loc ++ q ++ [n]) (node_of file base e) z)
    /\ (node_of file base e = HDir -> w_fs w1 (loc ++ q ++ [n]) = None) /\ (node_of file base e <> HDir -> w_fs w1 (loc ++ q ++ [n]) <> Some HDir)).
  { unfold act in M2. clear act. unfold node_of. change (is_directory (d_dirent (e_node e))) with (is_dir e) in M2. destruct (is_dir e) eqn:Edir.
    - unfold create_dir in M2. destruct file_path as [|c0 s0] eqn:Ef; [discriminate|]. rewrite C2, S2 in M2. apply mkdir_done in M2 as (G1 & G2); [|exact D2].
      rewrite <- Eloc in G1, G2. ssplit; [intros z; rewrite G2; reflexivity|auto|congruence].
    - rewrite (proj2 (N.eqb_neq _ _) Hnl) in M2. unfold copy_file, hbind in M2. destruct (open_trunc cwd file_path w1) as [w3 r3] eqn:Eo. pose proof (open_case _ _ _ _ _ Eo) as O.
      destruct r3 as [p|e3|e3|]; try discriminate. destruct O as (O1 & O2 & O3 & _). assert (Ep : p = loc ++ q ++ [n]).
      { rewrite O3 by (unfold no_dotdot; rewrite C2; exact D2). unfold place. rewrite S2, C2. symmetry. exact Eloc. }
      subst p. change (d_region (d_dirent (e_node e))) with (region_of e) in M2. ssplit; [|discriminate|auto]. intros z. destruct (region_is_empty (region_of e)) eqn:Ee.
      + injection M2 as <-. rewrite O2. unfold region_is_empty in Ee. apply N.eqb_eq in Ee. unfold file_data. rewrite Ee. reflexivity.
      + apply write_done in M2. rewrite M2, O2. unfold hset. destruct (hpath_eqb z (loc ++ q ++ [n])); reflexivity. }
  destruct K as (F & K1 & K2). unfold put. cbn [fst snd]. ssplit.
  - rewrite F. apply hset_eq.
  - intros Hn. specialize (K1 Hn). destruct (P (loc ++ q ++ [n])) as [E|(E & _)]; congruence.
  - intros Hn. specialize (K2 Hn). destruct (P (loc ++ q ++ [n])) as [E|(E & _)]; congruence.
  - intros z Hz. rewrite F, hset_neq by exact Hz. destruct (P z) as [E|(E1 & E2 & pre & suf & E3 & E4)]; [auto|]. right. ssplit; auto.
    destruct (prefix_two _ _ _ _ E3) as [(c & Ec)|(m & c & Ec)].
    + left. exists c. subst z. unfold loc, place. rewrite Ec, app_assoc. reflexivity.
    + right. exists m, c, (suf ++ [n]). subst pre. rewrite <- app_assoc in E3. apply app_inv_head in E3. split; [subst z; unfold loc, place; rewrite app_assoc; reflexivity|].
      rewrite E3. rewrite app_assoc. reflexivity.
Qed.

(** Below [loc] only what is listed is new. *)
Lemma put_all cwd file base dest tree ys : no_dotdot dest -> Forall2 (to_make file base) tree ys -> forall w w', NoDup (map fst ys) ->
  (forall l1 y l2 n r s, ys = l1 ++ y :: l2 -> fst y = (n :: r) ++ s -> s = [] \/ In (n :: r) (map fst l1) \/ w_fs w (place cwd dest ++ n :: r) <> None) ->
  copyout_loop cwd file base dest tree w = (w', Ok tt) ->
  (forall p x, In (p, x) ys -> w_fs w' (place cwd dest ++ p) = Some x)
  /\ (forall p, In (p, HDir) ys -> w_fs w (place cwd dest ++ p) = None)
  /\ (forall p x, In (p, x) ys -> x <> HDir -> w_fs w (place cwd dest ++ p) <> Some HDir)
  /\ (forall z, (forall p, In p (map fst ys) -> z <> place cwd dest ++ p) -> w_fs w' z = w_fs w z \/ (leads_to z (place cwd dest) /\ w_fs w z = None /\ w_fs w' z = Some HDir)).
Proof.
  intros Hd HF. set (loc := place cwd dest). induction HF as [|x [p0 x0] tree ys Hx HF IH]; intros w w' HN HO H.
  - injection H as <-. ssplit; auto; intros; contradiction.
  - destruct (put_step cwd file base dest x (p0, x0) tree w w' Hd Hx H) as (w1 & H1 & P1 & P2 & P3 & P4). fold loc in P1, P2, P3, P4. cbn [fst snd map] in *. inversion HN as [|? ? N1 N2]; subst.
    assert (Mono : forall z, w_fs w z <> None -> w_fs w1 z <> None).
    { intros z Hz. destruct (hpath_eqb_spec z (loc ++ p0)) as [->|Hne]; [congruence|]. destruct (P4 z Hne) as [E|(E & _)]; congruence. }
    assert (Off : forall p y, In (p, y) ys -> loc ++ p <> loc ++ p0).
    { intros p y Hi E. apply app_inv_head in E. subst p. apply N1. apply (in_map fst) in Hi. exact Hi. }
    destruct (IH w1 w' N2) as (I1 & I2 & I3 & I4); [|exact H1|].
    { intros l1 y l2 n r s El Ey. destruct (HO ((p0, x0) :: l1) y l2 n r s ltac:(rewrite El; reflexivity) Ey) as [E|[[E|E]|E]]; auto.
      right. right. rewrite <- E. cbn [fst]. congruence. }
    ssplit.
    + intros p y [[= <- <-]|Hi]; [|apply I1; exact Hi]. destruct (I4 (loc ++ p0)) as [E|(_ & E & _)]; [|congruence|congruence].
      intros p' Hi E. apply app_inv_head in E. subst p'. auto.
    + intros p [[= <- ->]|Hi]; [auto|]. specialize (I2 p Hi). destruct (w_fs w (loc ++ p)) eqn:E; [|reflexivity]. exfalso. apply (Mono (loc ++ p)); congruence.
    + intros p y [[= <- <-]|Hi] Hy; [auto|]. specialize (I3 p y Hi Hy). intros E. apply I3. destruct (P4 (loc ++ p) (Off _ _ Hi)) as [F|(F & _)]; congruence.
    + intros z Hz. assert (Hz0 : z <> loc ++ p0) by (apply Hz; left; reflexivity).
      assert (K : w_fs w1 z = w_fs w z \/ (leads_to z loc /\ w_fs w z = None /\ w_fs w1 z = Some HDir)).
      { destruct (P4 z Hz0) as [E|(E1 & E2 & [E3|(n & r & s & E3 & E4)])]; auto. exfalso.
        destruct (HO [] (p0, x0) ys n r s eq_refl E4) as [->|[[]|E]]; [|congruence]. rewrite app_nil_r in E4. congruence. }
      destruct (I4 z) as [E|(E1 & E2 & E3)]; [intros p Hi; apply Hz; right; exact Hi| |].
      * destruct K as [K|(K1 & K2 & K3)]; [left; congruence|right; ssplit; auto; congruence].
      * right. destruct K as [K|(K1 & K2 & K3)]; ssplit; auto; congruence.
Qed.

Lemma made_before file base out ys : parents_first out -> Forall2 (to_make file base) out ys ->
  forall s l1 y l2 n r, ys = l1 ++ y :: l2 -> fst y = (n :: r) ++ s -> s = [] \/ In (n :: r) (map fst l1).
Proof.
  intros HO HF s. induction s as [|m s IH] using rev_ind; [auto|]. intros l1 y l2 n r E Ey. right. rewrite app_assoc in Ey.
  destruct (made_parents _ _ _ _ HO HF l1 y l2 _ _ E Ey) as [H|H]; [discriminate|]. apply in_split in H as (a & b & ->).
  rewrite <- app_assoc in E. cbn [app] in E. destruct (IH a _ _ n r E eq_refl) as [->|H].
  - rewrite app_nil_r. rewrite map_app. apply in_or_app. right. left. reflexivity.
  - rewrite map_app. apply in_or_app. left. exact H.
Qed.

Lemma dir_atop file base d cwd dest r t w w' fuel : d = offset_dev (file_dev file) base -> lawful d -> contains d t r -> is_fdir t = true -> unix_tree t -> no_dotdot dest ->
  copyout_directory fuel cwd file base dest r w = (w', Ok tt) -> laid_over (place cwd dest) t (w_fs w) (w_fs w').
Proof.
  intros Ed HL HC Ht HU Hd H. destruct (unpack_list d t r HL Ht HC) as (out & ns & (n & O) & (HN & HE) & HF).
  assert (HO : parents_first out) by (eapply file_tree_order; apply (O n); lia).
  destruct (to_make_all file base d r t out ns HU) as (ys & Y1 & Y2 & Y3); [intros p t' Hi; apply HE; exact Hi|exact HF|].
  unfold copyout_directory, uread in H. rewrite <- Ed in H.
  destruct (file_tree fuel d r) as [out'|e|e|] eqn:Et; try discriminate.
  pose proof (file_tree_mono _ _ (dle_refl d) fuel (Nat.max n fuel) _ _ ltac:(lia) Et) as M. rewrite O in M by lia. injection M as <-.
  unfold uhost in H. destruct (copyout_loop cwd file base dest out w) as [w2 [[]|e|e|]] eqn:El; try discriminate. injection H as <-.
  destruct (put_all cwd file base dest out ys Hd Y1 w w2) as (P1 & P2 & P3 & P4); [rewrite Y2; exact HN| |exact El|].
  { intros l1 y l2 m q s E Ey. destruct (made_before file base out ys HO Y1 s l1 y l2 m q E Ey) as [K|K]; auto. }
  assert (Yof : forall p t', p <> [] -> at_path t p t' -> In (p, as_node t') ys).
  { intros p t' Hp Hat. assert (Hi : In (p, t') ns) by (apply HE; auto). clear -Y3 Hi Ed. induction Y3 as [|[pz tz] [py xy] ns ys (A & e & B & C) Y3 IH]; [destruct Hi|]. cbn [fst snd] in *.
    destruct Hi as [[= <- <-]|Hi]; [|right; auto]. left. subst py xy. f_equal. destruct B as (E1 & E2). unfold node_of. rewrite E1. destruct tz as [b|cs]; [|reflexivity].
    cbn [is_fdir as_node]. rewrite Ed in E2. rewrite (data_contained _ _ _ _ E2). reflexivity. }
  unfold laid_over. ssplit.
  - intros p t' Hp Hat. apply P1. apply Yof; auto.
  - intros p cs Hp Hat. apply P2. apply (Yof p (FDir cs)); auto.
  - intros p b Hp Hat. apply (P3 p (HFile b)); [apply (Yof p (FFile b)); auto|discriminate].
  - intros q Hq. apply P4. intros p Hi. rewrite Y2 in Hi. apply in_map_iff in Hi as ([p' t'] & E & Hi). cbn [fst] in E. subst p'. apply HE in Hi as (A & B). apply (Hq p t'); auto.
Qed.

Lemma c155_lemma fuel cwd ip file dest t w w' : is_image file t -> unix_tree t -> no_dotdot dest ->
  cmd_unpack fuel cwd ip file (Some dest) w = (w', Ok tt) -> laid_over (place cwd dest) t (w_fs w) (w_fs w').
Proof.
  intros (d & r & Ho & (v & Hv & ->) & Ht & HC) HU Hd H. pose proof (image_lawful _ _ Ho) as HL. destruct (open_image_base _ _ Ho) as (base & Hb & Ed).
  unfold cmd_unpack, unpack_target, uread in H. rewrite Hb, <- Ed, Hv in H. eapply dir_atop; eauto.
Qed.
Lemma c155_again_lemma fuel fuel' cwd ip ip' file dest t w w' w'' : is_image file t -> unix_tree t -> no_dotdot dest -> has_subdir t ->
  cmd_unpack fuel cwd ip file (Some dest) w = (w', Ok tt) -> cmd_unpack fuel' cwd ip' file (Some dest) w' <> (w'', Ok tt).
Proof.
  intros HI HU Hd (p & cs & Hp & Hat) H1 H2. destruct (c155_lemma _ _ _ _ _ _ _ _ HI HU Hd H1) as (A & _). destruct (c155_lemma _ _ _ _ _ _ _ _ HI HU Hd H2) as (_ & B & _).
  specialize (A p _ Hp Hat). specialize (B p cs Hp Hat). congruence.
Qed.

(** ** When it succeeds *)
(** There is room for [x] where [o] was found. *)
Definition suits (x : hnode) (o : option hnode) : Prop := match x with HDir => o = None | HFile _ => o <> Some HDir end.

Lemma atop_step cwd file base dest q n e w :
  no_dotdot dest -> has_nul (pcomps dest) = false -> Forall unix_name q -> unix_name n -> name_str e = n -> d_namelen (d_dirent (e_node e)) <> 0 ->
  w_left w = None -> rooted (w_fs w) -> w_fs w cwd = Some HDir ->
  (forall z, leads_to z (place cwd dest) -> w_fs w z = None \/ w_fs w z = Some HDir) ->
  (q = [] \/ w_fs w (place cwd dest ++ q) = Some HDir) -> suits (node_of file base e) (w_fs w (place cwd dest ++ q ++ [n])) ->
  exists w', (forall tree, copyout_loop cwd file base dest ((slashed q, e) :: tree) w = copyout_loop cwd file base dest tree w')
    /\ w_left w' = None /\ rooted (w_fs w') /\ w_fs w' (place cwd dest ++ q ++ [n]) = Some (node_of file base e)
    /\ (forall z, leads_to z (place cwd dest) -> w_fs w' z = Some HDir)
    /\ (forall z, ~ leads_to z (place cwd dest) -> z <> place cwd dest ++ q ++ [n] -> w_fs w' z = w_fs w z).
Proof.
  intros Hd Hnul Uq Un En Hnl HL HR Hcwd HP Hq HN. set (loc := place cwd dest) in *.
  set (dirname := pjoin dest (trim_start (slashed q))). set (file_path := pjoin dirname n).
  assert (Rn : is_absolute n = false) by (apply name_relative; apply Un).
  assert (C1 : pcomps dirname = pcomps dest ++ q) by (unfold dirname; rewrite pcomps_pjoin by apply trim_relative; rewrite trim_comps, pcomps_slashed by auto; reflexivity).
  assert (S1 : hstart cwd dirname = hstart cwd dest) by (apply hstart_pjoin, trim_relative).
  assert (C2 : pcomps file_path = (pcomps dest ++ q) ++ [n]) by (unfold file_path; rewrite pcomps_pjoin, C1, (pcomps_name n) by auto; reflexivity).
  assert (S2 : hstart cwd file_path = hstart cwd dest) by (unfold file_path; rewrite hstart_pjoin by auto; exact S1).
  assert (Hne : file_path <> []) by (apply pjoin_nonempty; [auto|apply Un]).
  assert (Hdl : dirlike file_path = false) by (unfold file_path; rewrite dirlike_pjoin by auto; apply name_dirlike; auto).
  assert (D1 : ~ In dotdot (pcomps dest ++ q)) by (rewrite in_app_iff; intros [Hi|Hi]; [apply Hd, Hi|apply (names_dotdot q Uq Hi)]).
  assert (D2 : ~ In dotdot ((pcomps dest ++ q) ++ [n])).
  { rewrite in_app_iff. intros [Hi|[Hi|[]]]; [apply D1, Hi|]. apply (names_dotdot [n]); [constructor; [auto|constructor]|left; exact Hi]. }
  assert (N1 : has_nul (pcomps dest ++ q) = false) by (rewrite has_nul_app, Hnul, names_nul by auto; reflexivity).
  assert (N2 : has_nul ((pcomps dest ++ q) ++ [n]) = false) by (rewrite has_nul_app, N1, names_nul; [reflexivity|constructor; [auto|constructor]]).
  assert (Hs : w_fs w (hstart cwd dest) = Some HDir) by (unfold hstart; destruct (is_absolute dest); [apply HR|exact Hcwd]).
  (* the directory *)
  assert (G1 : exists w1, create_dir_all cwd dirname w = (w1, Ok tt) /\ w_left w1 = None /\ dirs_on (w_fs w1) (hstart cwd dest) (pcomps dest ++ q)
    /\ paved (hstart cwd dest) (pcomps dest ++ q) (w_fs w) (w_fs w1)).
  { assert (P : paved (hstart cwd dest) (pcomps dest ++ q) (w_fs w) (w_fs (fst (create_dir_all cwd dirname w)))).
    { rewrite <- C1, <- S1. apply create_dir_all_paved. unfold no_dotdot. rewrite C1. exact D1. }
    destruct dirname as [|x s] eqn:Edn.
    - exists w. ssplit; [reflexivity|exact HL| |apply paved_refl]. rewrite <- C1. cbn. intros pre suf E Hp. symmetry in E. apply app_eq_nil in E as (-> & _). destruct Hp. reflexivity.
    - cbn [create_dir_all] in *. rewrite C1, S1 in *. destruct (mkdir_all_ok (hstart cwd dest) (pcomps dest ++ q) D1 N1 w HL HR Hs) as (w1 & M1 & L1 & D).
      + apply free_dirs; auto.
      + exists w1. ssplit; auto. rewrite M1 in P. exact P. }
  destruct G1 as (w1 & M1 & L1 & D & P).
  assert (R1 : rooted (w_fs w1)) by (eapply paved_rooted; eauto).
  assert (Hs1 : w_fs w1 (hstart cwd dest) = Some HDir) by (destruct (P (hstart cwd dest)) as [E|(E & _)]; congruence).
  assert (Hpar : w_fs w1 (loc ++ q) = Some HDir).
  { unfold loc, place. rewrite <- app_assoc. destruct (pcomps dest ++ q) as [|x l] eqn:El; [rewrite app_nil_r; exact Hs1|]. apply (D (x :: l) []); [rewrite app_nil_r; reflexivity|discriminate]. }
  assert (Eloc : loc ++ q ++ [n] = hstart cwd dest ++ (pcomps dest ++ q) ++ [n]) by (unfold loc, place; rewrite <- !app_assoc; reflexivity).
  assert (HN0 : w_fs w1 (loc ++ q ++ [n]) = w_fs w (loc ++ q ++ [n])).
  { destruct (P (loc ++ q ++ [n])) as [E|(E1 & E2 & pre & suf & E3 & E4)]; [congruence|]. exfalso. rewrite Eloc in E4. apply app_inv_head in E4. subst pre.
    apply (f_equal (@length str)) in E3. rewrite !app_length in E3. cbn in E3. lia. }
  rewrite <- HN0 in HN. assert (HN2 : w_fs w1 (loc ++ q ++ [n]) <> Some HDir) by (destruct (node_of file base e); cbn [suits] in HN; congruence).
  assert (Lead1 : forall z, leads_to z loc -> w_fs w1 z = Some HDir).
  { intros z (c & Ec). destruct (c ++ q) as [|x l] eqn:El.
    - apply app_eq_nil in El as (-> & ->). rewrite app_nil_r in *. subst z. exact Hpar.
    - apply (rooted_prefix _ z (x :: l) R1); [|discriminate]. rewrite <- El, app_assoc, <- Ec, Hpar. discriminate. }
  assert (Same1 : forall z, ~ leads_to z loc -> w_fs w1 z = w_fs w z).
  { intros z Hz. destruct (P z) as [E|(E1 & E2 & pre & suf & E3 & E4)]; [auto|]. destruct (prefix_two _ _ _ _ E3) as [(c & Ec)|(m & c & Ec)].
    - exfalso. apply Hz. exists c. subst z. unfold loc, place. rewrite Ec, app_assoc. reflexivity.
    - subst pre. rewrite <- app_assoc in E3. apply app_inv_head in E3. destruct Hq as [Hq|Hq]; [rewrite Hq in E3; discriminate|].
      assert (Hz' : w_fs w z = Some HDir).
      { subst z. rewrite app_assoc. fold loc. destruct suf as [|y suf]; [rewrite app_nil_r in E3; subst q; exact Hq|].
        apply (rooted_prefix _ (loc ++ m :: c) (y :: suf) HR); [|discriminate]. rewrite <- app_assoc, <- E3. rewrite Hq. discriminate. }
      congruence. }
  assert (Hxn : forall z, leads_to z loc -> z <> loc ++ q ++ [n]).
  { intros z (c & Ec) ->. apply (f_equal (@length str)) in Ec. rewrite !app_length in Ec. cbn in Ec. lia. }
  assert (Dp : dirs_on (w_fs w1) (hstart cwd dest) (pcomps dest ++ q)) by exact D.
  (* the entry *)
  assert (G2 : exists w2, (if is_directory (d_dirent (e_node e)) then create_dir cwd file_path
             else if d_namelen (d_dirent (e_node e)) =? 0 then hret tt
             else copy_file cwd file base file_path (d_region (d_dirent (e_node e)))) w1 = (w2, Ok tt) /\ w_left w2 = None
    /\ (forall z, w_fs w2 z = hset (w_fs w1) (loc ++ q ++ [n]) (node_of file base e) z)).
  { unfold node_of in *. change (is_directory (d_dirent (e_node e))) with (is_dir e). destruct (is_dir e) eqn:Edir.
    - unfold create_dir. destruct file_path as [|x s] eqn:Ef; [congruence|]. rewrite C2, S2, mkdir_new by (rewrite <- ?Eloc; auto).
      eexists. ssplit; [reflexivity|reflexivity|]. intros z. cbn [w_fs]. rewrite <- Eloc. reflexivity.
    - rewrite (proj2 (N.eqb_neq _ _) Hnl). unfold copy_file, hbind. rewrite (open_new _ _ _ _ _ Hne C2) by (rewrite ?S2, <- ?Eloc; auto). rewrite S2, <- Eloc.
      change (d_region (d_dirent (e_node e))) with (region_of e). destruct (region_is_empty (region_of e)) eqn:Ee.
      + eexists. ssplit; [reflexivity|reflexivity|]. intros z. cbn [w_fs]. unfold region_is_empty in Ee. apply N.eqb_eq in Ee. unfold file_data. rewrite Ee. reflexivity.
      + rewrite write_new_ok by reflexivity. eexists. ssplit; [reflexivity|reflexivity|]. intros z. cbn [w_fs]. unfold hset. destruct (hpath_eqb z (loc ++ q ++ [n])); reflexivity. }
  destruct G2 as (w2 & M2 & L2 & F2). exists w2. ssplit.
  - intros tree. cbn [copyout_loop]. cbv zeta. rewrite En. fold dirname. fold file_path. unfold hbind at 1. rewrite M1. unfold hbind at 1. rewrite M2. reflexivity.
  - exact L2.
  - assert (R2 : rooted (hset (w_fs w1) ((loc ++ q) ++ [n]) (node_of file base e))) by (apply rooted_hset; auto; rewrite <- app_assoc; auto).
    rewrite <- app_assoc in R2. destruct R2 as (A & B). split; [rewrite F2; exact A|]. intros p m. rewrite !F2. apply B.
  - rewrite F2. apply hset_eq.
  - intros z Hz. rewrite F2, hset_neq by (apply Hxn; exact Hz). apply Lead1. exact Hz.
  - intros z Hz Hz'. rewrite F2, hset_neq by exact Hz'. apply Same1. exact Hz.
Qed.

Lemma atop_all cwd file base dest tree ys : no_dotdot dest -> has_nul (pcomps dest) = false -> Forall2 (to_make file base) tree ys ->
  forall w, w_left w = None -> rooted (w_fs w) -> w_fs w cwd = Some HDir ->
  (forall z, leads_to z (place cwd dest) -> w_fs w z = None \/ w_fs w z = Some HDir) ->
  NoDup (map fst ys) -> (forall p x, In (p, x) ys -> suits x (w_fs w (place cwd dest ++ p))) ->
  (forall l1 y l2 q n, ys = l1 ++ y :: l2 -> fst y = q ++ [n] -> q = [] \/ w_fs w (place cwd dest ++ q) = Some HDir \/ In (q, HDir) l1) ->
  exists w', copyout_loop cwd file base dest tree w = (w', Ok tt)
    /\ (forall p x, In (p, x) ys -> w_fs w' (place cwd dest ++ p) = Some x)
    /\ (forall z, leads_to z (place cwd dest) -> w_fs w' z = Some HDir \/ (ys = [] /\ w_fs w' z = w_fs w z))
    /\ (forall z, ~ leads_to z (place cwd dest) -> (forall p x, In (p, x) ys -> z <> place cwd dest ++ p) -> w_fs w' z = w_fs w z).
Proof.
  intros Hd Hnul HF. set (loc := place cwd dest). induction HF as [|[dir e] [p x] tree ys (q & n & E1 & E2 & E3 & E4 & E5 & E6) HF IH]; intros w HL HR Hcwd HP HN HA HO.
  - exists w. ssplit; auto. intros p x [].
  - cbn [fst snd] in *. subst p dir x. apply Forall_app in E4 as (Uq & Un). inversion Un as [|? ? Un1 _]; subst. inversion HN as [|? ? N1 N2]; subst.
    assert (Hfresh : suits (node_of file base e) (w_fs w (loc ++ q ++ [name_str e]))) by (apply (HA _ (node_of file base e)); left; reflexivity).
    assert (Hq : q = [] \/ w_fs w (loc ++ q) = Some HDir) by (destruct (HO [] _ ys q (name_str e) eq_refl eq_refl) as [H|[H|[]]]; auto).
    destruct (atop_step cwd file base dest q (name_str e) e w Hd Hnul Uq Un1 eq_refl E5 HL HR Hcwd HP Hq Hfresh) as (w1 & S1 & S2 & S3 & S4 & S5 & S6).
    fold loc in S4, S5, S6.
    assert (Hnl : forall m (r : list str), ~ leads_to (loc ++ r ++ [m]) loc).
    { intros m r (c & Ec). apply (f_equal (@length str)) in Ec. rewrite !app_length in Ec. cbn in Ec. lia. }
    assert (Hys : forall p' x', In (p', x') ys -> exists r m, p' = r ++ [m]).
    { clear -HF. intros p' x' Hi. induction HF as [|? ? ? ? (r & m & F1 & _) HF IH]; [destruct Hi|]. destruct Hi as [->|Hi]; [exists r, m; exact F1|auto]. }
    assert (Hkeep : forall z, w_fs w z = Some HDir -> w_fs w1 z = Some HDir).
    { intros z Hz. destruct (hpath_eqb_spec z (loc ++ q ++ [name_str e])) as [->|Hne]; [rewrite Hz in Hfresh; destruct (node_of file base e); cbn [suits] in Hfresh; congruence|].
      assert (Dec : leads_to z loc \/ ~ leads_to z loc).
      { destruct (prefix_dec z loc) as [H|H]; [left|right]; exact H. }
      destruct Dec as [H|H]; [auto|]. rewrite S6 by auto. exact Hz. }
    destruct (IH w1) as (w2 & T1 & T2 & T3 & T4); auto.
    + intros p' x' Hi. destruct (Hys _ _ Hi) as (r & m & ->). rewrite S6; [apply (HA _ x'); right; exact Hi|apply Hnl|].
      intros Eq. apply app_inv_head in Eq. apply N1. rewrite <- Eq. apply (in_map fst) in Hi. exact Hi.
    + intros l1 y l2 q' n' El Ey. destruct (HO ((q ++ [name_str e], node_of file base e) :: l1) y l2 q' n' ltac:(rewrite El; reflexivity) Ey) as [H|[H|[H|H]]]; auto.
      right. left. injection H as <- Hx. rewrite S4. rewrite Hx. reflexivity.
    + exists w2. ssplit.
      * rewrite S1. exact T1.
      * intros p' x' [[= <- <-]|Hi]; [|apply T2; exact Hi]. rewrite T4; [exact S4|apply Hnl|].
        intros p' x' Hi Eq. apply app_inv_head in Eq. apply N1. rewrite Eq. apply (in_map fst) in Hi. exact Hi.
      * intros z Hz. left. destruct (T3 z Hz) as [H|(_ & H)]; [exact H|]. rewrite H. apply S5. exact Hz.
      * intros z Hz Hz'. rewrite T4; [apply S6; [exact Hz|apply (Hz' _ (node_of file base e)); left; reflexivity]|exact Hz|].
        intros p' x' Hi. apply (Hz' p' x'). right. exact Hi.
Qed.

Lemma c155_when cwd ip file dest t w : is_image file t -> unix_tree t -> ready_over cwd dest t w ->
  exists w', returns (fun fuel => cmd_unpack fuel cwd ip file (Some dest) w) (w', Ok tt) /\ laid_over (place cwd dest) t (w_fs w) (w_fs w').
Proof.
  intros HI HU (HwL & HR & Hcwd & Hd & Hnul & HP & Hr1 & Hr2). apply no_nul in Hnul. assert (HI' := HI). destruct HI' as (d & r & Ho & (v & Hv & ->) & Ht & HC).
  pose proof (image_lawful _ _ Ho) as HL. destruct (open_image_base _ _ Ho) as (base & Hb & Ed). destruct (unpack_list d t (v_root v) HL Ht HC) as (out & ns & (n & O) & (HN & HE) & HF).
  assert (HO : parents_first out) by (eapply file_tree_order; apply (O n); lia).
  destruct (to_make_all file base d (v_root v) t out ns HU) as (ys & Y1 & Y2 & Y3); [intros p t' Hi; apply HE; exact Hi|exact HF|].
  assert (Yin : forall p x, In (p, x) ys -> exists t', In (p, t') ns /\ x = as_node t').
  { intros p x Hi. clear -Y3 Hi Ed. induction Y3 as [|[pz tz] [py xy] ns ys (A & e & B & C) Y3 IH]; [destruct Hi|]. cbn [fst snd] in *. destruct Hi as [[= <- <-]|Hi].
    - exists tz. subst py xy. split; [left; reflexivity|]. destruct B as (E1 & E2). unfold node_of. rewrite E1. destruct tz as [b|cs]; [|reflexivity].
      cbn [is_fdir as_node]. rewrite Ed in E2. rewrite (data_contained _ _ _ _ E2). reflexivity.
    - destruct (IH Hi) as (t' & H1 & H2). exists t'. split; [right; exact H1|exact H2]. }
  destruct (atop_all cwd file base dest out ys Hd Hnul Y1 w HwL HR Hcwd HP) as (w' & W1 & _).
  { rewrite Y2. exact HN. }
  { intros p x Hi. destruct (Yin p x Hi) as (t' & H1 & ->). apply HE in H1 as (H1 & H2). destruct t' as [b|cs]; cbn [as_node suits]; eauto. }
  { intros l1 y l2 q m E Ey. destruct (made_parents _ _ _ _ HO Y1 l1 y l2 q m E Ey) as [H|H]; auto. }
  exists w'. assert (R : returns (fun fuel => cmd_unpack fuel cwd ip file (Some dest) w) (w', Ok tt)).
  { exists n. intros k Hk. unfold cmd_unpack, unpack_target, uread. rewrite Hb, <- Ed, Hv. unfold copyout_directory, uread. rewrite <- Ed, (O k Hk). unfold uhost. rewrite W1. reflexivity. }
  split; [exact R|]. destruct R as (k & R). eapply c155_lemma; [exact HI|exact HU|exact Hd|apply (R k); lia].
Qed.
