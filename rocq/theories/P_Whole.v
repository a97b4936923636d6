(** extract-xiso from end to end (C149). *)
From Verif Require Import M_Base M_Util M_Layout M_Read M_Img M_Dev M_Xfs M_Check M_Remap M_Cli M_Unpack M_Exiso M_Extract M_Copyout M_Stdfs M_Host M_Main.
From Verif Require Import S_Avl S_Codec S_Read S_Img S_Dev S_Xfs S_Check S_Cli S_Unpack S_Exiso S_Stdfs S_Fault S_Extract S_Main S_Whole.
From Verif Require Import P_Base P_Witness P_Tree P_More P_Repack P_Check P_Src P_Cli P_Host P_Mono P_Unpack P_Exiso P_Stdfs P_Extra P_Extract P_Copyout P_Main.
From Verif Require Import M_Host.
From Coq Require Import Init.Byte Lia List.
Local Open Scope N_scope.

(** ** Rewriting *)
Lemma rooted_file h h' i n x : rooted h -> h i = Some HDir -> h (i ++ [n]) <> Some HDir -> (forall z, z <> i ++ [n] -> h' z = h z) -> h' (i ++ [n]) = x -> rooted h'.
Proof.
  intros (R1 & R2) Hi Hn K _. assert (Hne : forall z, h z = Some HDir -> h' z = Some HDir) by (intros z Hz; rewrite K; [exact Hz|congruence]).
  split; [auto|]. intros z c Hz. destruct (hpath_eqb_spec (z ++ [c]) (i ++ [n])) as [E|E].
  - apply app_inj_tail in E as (-> & _). auto.
  - rewrite K in Hz by exact E. eauto.
Qed.
Lemma delete_run cwd pk d x w p q b : Forall unix_name cwd -> canonicalize (w_fs w) cwd x = Ok p -> w_fs w p = Some (HFile b) -> moved_to p q ->
  repack_one cwd pk d true x w = match exiso_repack cwd pk d false [x] w with (w1, Ok _) => remove_file q w1 | r => r end.
Proof.
  intros Hcwd Hc Hb Hm. pose proof (canonical_names _ _ _ _ Hcwd Hc) as Hu.
  assert (Eq : change_last (fun n => name_with_ext n OLD) p = q) by (apply change_last_moved; auto).
  cbn [exiso_repack]. unfold repack_one, hbind, hres, existing. rewrite Hc. cbn [bind]. rewrite Hb. cbn [ok_or bind is_hdir]. cbv zeta. rewrite Eq.
  destruct (rename_file p q w) as [w1 [[]|e|e|]]; try reflexivity.
  match goal with |- context [match ?y with Ok _ => _ | _ => _ end] => destruct y as [dest|e|e|]; try reflexivity end.
  destruct (cmd_pack_path cwd pk q (pstr dest) w1) as [w2 [[]|e|e|]]; try reflexivity.
Qed.
Lemma keep_run cwd pk d del x w : exiso_repack cwd pk d del [x] w = repack_one cwd pk d del x w.
Proof. cbn [exiso_repack]. unfold hbind, hret. destruct (repack_one cwd pk d del x w) as [w1 [[]|e|e|]]; reflexivity. Qed.
Lemma rewrite_one m ls cwd del j w : Forall unix_name cwd -> w_left w = None -> rooted (w_fs w) -> rewritable m cwd (w_fs w) j -> r_at j <> r_old j ->
  exists img h', returns (fun fuel => repack_one cwd (std_packer ls fuel m) None del (r_arg j) w) (mkWorld h' None, Ok tt)
   /\ packs m (r_tree j) img /\ h' (r_at j) = Some (HFile img) /\ h' (r_old j) = (if del then None else Some (HFile (r_file j)))
   /\ (forall z, z <> r_at j -> z <> r_old j -> h' z = w_fs w z) /\ rooted h'.
Proof.
  intros Hcwd HL HR (Hc & Hb & Hm & Hq & (d & v & Ho & Hv & Hs) & HS & HLt & Hrep) Hpq. destruct j as [x p q file t]. cbn [r_arg r_at r_old r_file r_tree] in *.
  set (h1 := hset (hunset (w_fs w) p) q (HFile file)). set (h2 := hset h1 p (HFile [])). assert (H2q : h2 q = Some (HFile file)) by (unfold h2; rewrite hset_neq by auto; apply hset_eq).
  destruct (any_image_run m file d v t h2 q H2q Ho Hv Hs HS HLt) as (img & o & (k & Hk) & [(_ & -> & Hpk)|(Hn & _)]); [|destruct (Hn Hrep)].
  set (h3 := hset h2 p (HFile img)). assert (K : forall z, z <> p -> z <> q -> h3 z = w_fs w z).
  { intros z Z1 Z2. unfold h3, h2, h1. rewrite !hset_neq by auto. unfold hunset. destruct (hpath_eqb_spec z p); [congruence|reflexivity]. }
  assert (H3q : h3 q = Some (HFile file)) by (unfold h3; rewrite hset_neq by auto; exact H2q). assert (H3p : h3 p = Some (HFile img)) by apply hset_eq.
  assert (E : forall fuel, (k <= fuel)%nat -> exiso_repack cwd (std_packer ls fuel m) None false [x] w = (mkWorld h3 None, Ok tt)).
  { intros fuel Hf. rewrite (rewrite_run cwd _ x w p q file) by auto. fold h1. unfold packed_to. fold h2. unfold std_packer. rewrite H2q, (Hk fuel Hf). reflexivity. }
  exists img, (if del then hunset h3 q else h3).
  assert (U : forall z, z <> q -> hunset h3 q z = h3 z) by (intros z Hz; unfold hunset; destruct (hpath_eqb_spec z q); [congruence|reflexivity]).
  assert (Uq : hunset h3 q q = None) by (unfold hunset; destruct (hpath_eqb_spec q q); [reflexivity|congruence]).
  ssplit.
  - exists k. intros fuel Hf. destruct del.
    + rewrite (delete_run cwd _ None x w p q file Hcwd Hc Hb Hm), (E fuel Hf). unfold remove_file. cbn [w_fs w_left]. rewrite H3q. reflexivity.
    + rewrite <- keep_run. apply E, Hf.
  - exact Hpk.
  - destruct del; [rewrite U by auto|]; exact H3p.
  - destruct del; [exact Uq|exact H3q].
  - intros z Z1 Z2. destruct del; [rewrite U by auto|]; auto.
  - destruct Hm as (i & n & n' & Ep & Eq & _). assert (Hi : w_fs w i = Some HDir) by (apply HR with n; rewrite <- Ep, Hb; discriminate).
    assert (A : rooted (hset (w_fs w) p (HFile img))).
    { rewrite Ep. eapply (rooted_file (w_fs w) _ i n); [exact HR|exact Hi|rewrite <- Ep, Hb; discriminate|intros z Hz; apply hset_neq; exact Hz|reflexivity]. }
    assert (Hip : i <> p) by (intros E0; rewrite E0, Hb in Hi; discriminate).
    assert (B : forall h', (forall z, z <> q -> h' z = hset (w_fs w) p (HFile img) z) -> rooted h').
    { intros h' Hh. rewrite Eq in Hh. eapply (rooted_file (hset (w_fs w) p (HFile img)) _ i n'); [exact A|rewrite hset_neq by auto; exact Hi|rewrite <- Eq, hset_neq by auto; exact Hq|exact Hh|reflexivity]. }
    apply B. intros z Hz. destruct (hpath_eqb_spec z p) as [->|Hp].
    + rewrite hset_eq. destruct del; [rewrite U by auto|]; exact H3p.
    + rewrite hset_neq by auto. destruct del; [rewrite U by auto|]; apply K; auto.
Qed.
Lemma rewrite_all m ls cwd del js : Forall unix_name cwd -> forall w, w_left w = None -> rooted (w_fs w) -> Forall (rewritable m cwd (w_fs w)) js -> NoDup (map r_at js ++ map r_old js) ->
  exists w', returns (fun fuel => exiso_repack cwd (std_packer ls fuel m) None del (map r_arg js) w) (w', Ok tt)
   /\ (forall j, In j js -> (exists img, w_fs w' (r_at j) = Some (HFile img) /\ packs m (r_tree j) img) /\ w_fs w' (r_old j) = if del then None else Some (HFile (r_file j)))
   /\ forall z, ~ In z (map r_at js ++ map r_old js) -> w_fs w' z = w_fs w z.
Proof.
  intros Hcwd. induction js as [|j js IH]; intros w HL HR HF HN.
  - exists w. split; [exists 0%nat; reflexivity|]. split; [intros j []|reflexivity].
  - cbn [map] in *. pose proof (Forall_inv HF) as F1. apply Forall_inv_tail in HF. set (ps := map r_at js) in *. set (qs := map r_old js) in *.
    assert (HN' : NoDup (ps ++ qs) /\ ~ In (r_at j) (ps ++ qs) /\ ~ In (r_old j) (ps ++ qs) /\ r_at j <> r_old j).
    { cbn [app] in HN. inversion HN as [|? ? Hp HN1]; subst. apply NoDup_remove in HN1 as (HN1 & Hq). ssplit; auto.
      - intros Hi. apply Hp. apply in_or_app. apply in_app_or in Hi as [Hi|Hi]; auto. right. right. exact Hi.
      - intros E. apply Hp. apply in_or_app. right. left. auto. }
    destruct HN' as (HN1 & Hp & Hq & Hpq). destruct (rewrite_one m ls cwd del j w Hcwd HL HR F1 Hpq) as (img & h' & (k & R) & P1 & P2 & P3 & P4 & P5).
    assert (KD : forall z, w_fs w z = Some HDir -> h' z = Some HDir).
    { intros z Hz. destruct F1 as (_ & G1 & _ & G2 & _). rewrite P4; [exact Hz| |]; intros ->; congruence. }
    destruct (IH (mkWorld h' None)) as (w' & (k2 & R2) & T & O); cbn [w_fs w_left] in *; auto.
    { rewrite Forall_forall in *. intros j' Hj'. destruct (HF j' Hj') as (G1 & G2 & G3 & G4 & G5).
      assert (I1 : In (r_at j') (ps ++ qs)) by (apply in_or_app; left; apply in_map; exact Hj'). assert (I2 : In (r_old j') (ps ++ qs)) by (apply in_or_app; right; apply in_map; exact Hj').
      assert (H2 : h' (r_at j') = Some (HFile (r_file j'))) by (rewrite P4; [exact G2| |]; intros E; [apply Hp|apply Hq]; rewrite <- E; exact I1).
      unfold rewritable. ssplit; auto.
      - eapply canonicalize_more; [exact KD|exact G1|]. eauto.
      - rewrite P4; [exact G4| |]; intros E; [apply Hp|apply Hq]; rewrite <- E; exact I2.
      - apply G5.
      - apply G5.
      - apply G5.
      - apply G5. }
    exists w'. split; [|split].
    + exists (Nat.max k k2). intros fuel Hf. cbn [exiso_repack]. unfold hbind. rewrite R by lia. apply R2. lia.
    + intros j' [<-|Hj']; [|apply T; exact Hj']. split; [exists img; split; [rewrite O by exact Hp|]; auto|rewrite O by exact Hq; exact P3].
    + intros z Hz. rewrite O; [apply P4; intros ->; apply Hz; [left; reflexivity|right; apply in_or_app; right; left; reflexivity]|].
      intros Hi. apply Hz. right. apply in_or_app. apply in_app_or in Hi as [Hi|Hi]; auto. right. right. exact Hi.
Qed.

(** ** Processes *)
Lemma hosted_run (f : nat -> hprog unit) w w' q : returns (fun fuel => f fuel w) (w', Ok tt) -> returns (fun fuel => finish_with q (hosted (f fuel) w)) (mkProcess w' [] None (Some 0)).
Proof. intros (k & R). exists k. intros fuel Hf. unfold hosted, quietly, uhost. rewrite (R fuel Hf). reflexivity. Qed.
Lemma quietly_run (f : nat -> world -> world * res uerr unit) w w' q : returns (fun fuel => f fuel w) (w', Ok tt) -> returns (fun fuel => finish_with q (quietly (f fuel) w)) (mkProcess w' [] None (Some 0)).
Proof. intros (k & R). exists k. intros fuel Hf. unfold quietly. rewrite (R fuel Hf). reflexivity. Qed.

Lemma c149_rewrite_lemma H m dup ls cwd w del q qa js : Forall unix_name cwd -> w_left w = None -> rooted (w_fs w) -> Forall (rewritable m cwd (w_fs w)) js -> NoDup (map r_at js ++ map r_old js) ->
  exists w', returns (fun fuel => main H m fuel dup cwd (std_packer ls fuel m) (Exiso (mkEx None del q qa (ModeR (map r_arg js)))) w) (mkProcess w' [] None (Some 0))
   /\ (forall j, In j js -> (exists img, w_fs w' (r_at j) = Some (HFile img) /\ packs m (r_tree j) img) /\ w_fs w' (r_old j) = if del then None else Some (HFile (r_file j)))
   /\ forall z, ~ In z (map r_at js ++ map r_old js) -> w_fs w' z = w_fs w z.
Proof.
  intros Hcwd HL HR HF HN. destruct (rewrite_all m ls cwd del js Hcwd w HL HR HF HN) as (w' & R & T). exists w'. split; [|exact T]. cbn [main]. unfold run_exiso_program, run_exiso_command. cbn [x_mode x_directory x_delete].
  apply (hosted_run (fun fuel => exiso_repack cwd (std_packer ls fuel m) None del (map r_arg js))). exact R.
Qed.
Lemma c149_extract_lemma H m dup pk cwd w del q qa js : w_left w = None -> rooted (w_fs w) -> w_fs w cwd = Some HDir -> Forall (extractable cwd (w_fs w)) js -> NoDup (map j_stem js) ->
  exists w', returns (fun fuel => main H m fuel dup cwd pk (Exiso (mkEx None del q qa (ModeX (map j_path js)))) w) (mkProcess w' [] None (Some 0))
    /\ (forall j, In j js -> S_Extract.tree_at (w_fs w') (cwd ++ [j_stem j]) (j_tree j))
    /\ forall z, (forall j, In j js -> ~ leads_to (cwd ++ [j_stem j]) z) -> w_fs w' z = w_fs w z.
Proof.
  intros HL HR Hc HF HN. destruct (c104_lemma cwd js w HL HR Hc HF HN) as (w' & R & T). exists w'. split; [|exact T]. cbn [main]. unfold run_exiso_program, run_exiso_command. cbn [x_mode x_directory x_delete].
  apply (quietly_run (fun fuel => exiso_extract fuel cwd None (map j_path js))). exact R.
Qed.

(** ** Creating *)
Lemma create_one m ls cwd j w : Forall unix_name cwd -> w_left w = None -> rooted (w_fs w) -> creatable m ls cwd (w_fs w) j -> ~ leads_to (c_at j) (c_out j) ->
  exists img h', returns (fun fuel => exiso_create_single cwd (std_packer ls fuel m) (c_dir j) (c_file j) w) (mkWorld h' None, Ok tt)
   /\ packs m (c_tree j) img /\ h' (c_out j) = Some (HFile img) /\ (forall z, z <> c_out j -> h' z = w_fs w z) /\ rooted h'.
Proof.
  intros Hcwd HL HR (Hc & HH & HS & Hrep & Hg & Hf & dir & n & Ho & Hdir & Hnd) Hl. destruct j as [x f p o t]. cbn [c_dir c_file c_at c_out c_tree] in *.
  pose proof (canonical_names _ _ _ _ Hcwd Hc) as Hu.
  assert (Hp : w_fs w p = Some HDir).
  { destruct HH as (H1 & _). specialize (H1 [] t (at_here t)). rewrite app_nil_r in H1. rewrite H1. destruct HS as (HS & _). destruct t; [discriminate|reflexivity]. }
  assert (G : exists i, create_target p f = i /\ place cwd i = o /\ no_dotdot i /\ ~ In 0 i /\ dirlike i = false).
  { destruct f as [f|]; cbn [create_target].
    - destruct Hg as (G1 & ->). destruct (Hf f eq_refl) as (G2 & G3). exists f. auto.
    - destruct Hg as (i & c & c' & Ep & Hx & Eo). subst p o. assert (Hui : Forall unix_name i /\ unix_name c) by (apply Forall_app in Hu as (U1 & U2); split; [exact U1|apply Forall_inv in U2; exact U2]).
      destruct Hui as (Hui & Huc). assert (Hc' : unix_name c') by (apply (new_ext_unix [105; 115; 111] c c'); auto; try (cbn; intuition discriminate); cbn; lia).
      assert (E : change_last (fun n => name_with_ext n [105; 115; 111]) (i ++ [c]) = i ++ [c']).
      { unfold change_last. rewrite split_last_snoc. rewrite is_dotdot_false by (intros ->; destruct Huc as (_ & _ & Huc & _); congruence). f_equal. f_equal.
        apply (new_ext_fun [105; 115; 111] c); auto. apply name_with_ext_ok. }
      rewrite E. exists (pstr (i ++ [c'])). assert (Hu' : Forall unix_name (i ++ [c'])) by (apply Forall_app; auto). assert (Hne : i ++ [c'] <> []) by (destruct i; discriminate).
      destruct (pstr_place cwd (i ++ [c']) Hu' Hne) as (P1 & P2). ssplit; auto.
      + rewrite pstr_slashed by auto. intros H0. pose proof (names_nul _ Hu') as Hz. rewrite Forall_forall in Hu'. clear -H0 Hu'. unfold slashed in H0. apply in_concat in H0 as (l & Hl & H0). apply in_map_iff in Hl as (a & <- & Ha).
        destruct H0 as [H0|H0]; [discriminate|]. apply Hu' in Ha. apply Ha. exact H0.
      + rewrite pstr_slashed by auto. rewrite slashed_app. change (slashed [c']) with (47 :: c' ++ []). rewrite app_nil_r. unfold dirlike. rewrite split_app, rev_app_distr.
        pose proof (name_dirlike c' Hc') as D. unfold dirlike in D. rewrite split_plain in * by apply Hc'. cbn [rev app] in *. exact D. }
  destruct G as (i & Ei & Hpl & Hnod & Hnul & Hdl). assert (HW : ready_for_file cwd i w) by (unfold ready_for_file; rewrite Hpl; ssplit; auto; exists dir, n; ssplit; auto; rewrite <- Ho; exact Hnd).
  destruct (std_packer_run m _ ls p t HS (hosts_hset _ _ _ _ o (HFile []) Hl HH)) as (img & r & (k & R) & [(_ & -> & Hpk)|(Hn & _)]); [|destruct (Hn Hrep)].
  exists img, (hset (hset (w_fs w) o (HFile [])) o (HFile img)). ssplit.
  - exists k. intros fuel Hk. unfold exiso_create_single, hbind, hres, existing. rewrite Hc. cbn [bind]. rewrite Hp. cbn [ok_or bind is_hdir]. rewrite Ei.
    rewrite (pack_path_run cwd _ p i w _ Hp HW) by (rewrite Hpl; exact Hl). unfold packed_to. rewrite Hpl, (R fuel Hk). reflexivity.
  - exact Hpk.
  - apply hset_eq.
  - intros z Hz. rewrite !hset_neq by auto. reflexivity.
  - rewrite Ho in *. eapply (rooted_file (w_fs w) _ dir n); [exact HR|exact Hdir|exact Hnd| |reflexivity]. intros z Hz. rewrite !hset_neq by auto. reflexivity.
Qed.
Lemma create_jobs m ls cwd js : Forall unix_name cwd -> forall w, w_left w = None -> rooted (w_fs w) -> Forall (creatable m ls cwd (w_fs w)) js ->
  NoDup (map c_out js) -> (forall j j', In j js -> In j' js -> ~ leads_to (c_at j) (c_out j')) ->
  exists w', returns (fun fuel => create_all cwd (std_packer ls fuel m) (map (fun j => (c_dir j, c_file j)) js) w) (w', Ok tt)
   /\ w_left w' = None /\ rooted (w_fs w')
   /\ (forall j, In j js -> exists img, w_fs w' (c_out j) = Some (HFile img) /\ packs m (c_tree j) img)
   /\ forall z, ~ In z (map c_out js) -> w_fs w' z = w_fs w z.
Proof.
  intros Hcwd. induction js as [|j js IH]; intros w HL HR HF HN HA.
  - exists w. split; [exists 0%nat; reflexivity|]. ssplit; auto. intros j [].
  - cbn [map] in *. pose proof (Forall_inv HF) as F1. apply Forall_inv_tail in HF. inversion HN as [|? ? N1 N2]; subst.
    destruct (create_one m ls cwd j w Hcwd HL HR F1 (HA j j (or_introl eq_refl) (or_introl eq_refl))) as (img & h' & (k & R) & P1 & P2 & P3 & P4).
    assert (Hnd : w_fs w (c_out j) <> Some HDir) by (destruct F1 as (_ & _ & _ & _ & _ & _ & dir & n & _ & _ & G); exact G).
    assert (KD : forall z, w_fs w z = Some HDir -> h' z = Some HDir) by (intros z Hz; rewrite P3; [exact Hz|congruence]).
    destruct (IH (mkWorld h' None)) as (w' & (k2 & R2) & L' & R' & T & O); cbn [w_fs w_left] in *; auto.
    { rewrite Forall_forall in *. intros j' Hj'. destruct (HF j' Hj') as (G1 & G2 & G3 & G4 & G5 & G6 & dir & n & G7 & G8 & G9).
      assert (Hne : c_out j' <> c_out j) by (intros E; apply N1; rewrite <- E; apply in_map; exact Hj').
      unfold creatable. ssplit; auto.
      - eapply canonicalize_more; [exact KD|exact G1|]. intros b Hb. exfalso. destruct G2 as (G2 & _). specialize (G2 [] _ (at_here _)). rewrite app_nil_r, Hb in G2. destruct G3 as (G3 & _). destruct (c_tree j'); [discriminate G3|discriminate G2].
      - pose proof (HA j' j (or_intror Hj') (or_introl eq_refl)) as Ha. destruct G2 as (H1 & H2 & H3). assert (K : forall p, h' (c_at j' ++ p) = w_fs w (c_at j' ++ p)) by (intros p; apply P3; intros E; apply Ha; exists p; auto).
        unfold hosts; ssplit; [|intros p y; rewrite K; apply H2|exact H3]. intros p t' Hat. rewrite K. auto.
      - exists dir, n. ssplit; auto. rewrite P3 by exact Hne. exact G9. }
    { intros a b Ha Hb. apply HA; right; assumption. }
    exists w'. ssplit; auto.
    + exists (Nat.max k k2). intros fuel Hf. cbn [create_all]. unfold hbind. rewrite R by lia. apply R2. lia.
    + intros j' [<-|Hj']; [|apply T; exact Hj']. exists img. split; [rewrite O by exact N1|]; auto.
    + intros z Hz. rewrite O by (intros Hi; apply Hz; right; exact Hi). apply P3. intros ->. apply Hz. left. reflexivity.
Qed.
Lemma c149_create_lemma H m dup ls cwd w d del q qa j js : Forall unix_name cwd -> w_left w = None -> rooted (w_fs w) -> Forall (creatable m ls cwd (w_fs w)) (j :: js) -> Forall (fun j => c_file j = None) js ->
  NoDup (map c_out (j :: js)) -> (forall a b, In a (j :: js) -> In b (j :: js) -> ~ leads_to (c_at a) (c_out b)) ->
  exists w', returns (fun fuel => main H m fuel dup cwd (std_packer ls fuel m) (Exiso (mkEx d del q qa (ModeC (c_dir j) (c_file j) (create_line (map (fun j => (c_dir j, None)) js))))) w)
      (mkProcess w' [] None (Some 0))
   /\ (forall a, In a (j :: js) -> exists img, w_fs w' (c_out a) = Some (HFile img) /\ packs m (c_tree a) img)
   /\ forall z, ~ In z (map c_out (j :: js)) -> w_fs w' z = w_fs w z.
Proof.
  intros Hcwd HL HR HF HN0 HN HA. destruct (create_jobs m ls cwd (j :: js) Hcwd w HL HR HF HN HA) as (w' & R & _ & _ & T). exists w'. split; [|exact T]. cbn [main]. unfold run_exiso_program, run_exiso_command. cbn [x_mode x_directory x_delete].
  apply (hosted_run (fun fuel => exiso_create cwd (std_packer ls fuel m) (c_dir j) (c_file j) (create_line (map (fun j => (c_dir j, None)) js)))).
  destruct R as (k & R). exists k. intros fuel Hf. unfold exiso_create, hbind at 1, hres. rewrite create_args_dirs by (apply Forall_forall; intros g Hg; apply in_map_iff in Hg as (a & <- & _); reflexivity).
  rewrite <- (R fuel Hf). cbn [map]. f_equal. f_equal. apply map_ext_in. intros a Ha. rewrite Forall_forall in HN0. rewrite (HN0 a Ha). reflexivity.
Qed.

(** ** Creating and extracting *)
Lemma c149_trip_lemma H m dup ls cwd w src i p t s n dir : Forall unix_name cwd -> w_left w = None -> rooted (w_fs w) -> w_fs w cwd = Some HDir ->
  creatable m ls cwd (w_fs w) (mkCjob src (Some i) p (place cwd i) t) -> unix_tree t -> t <> FDir [] ->
  place cwd i = dir ++ [n] -> stem_of n s -> unix_name s -> w_fs w (cwd ++ [s]) = None -> place cwd i <> cwd ++ [s] ->
  ~ leads_to p (place cwd i) -> apart p (cwd ++ [s]) ->
  exists w1 w2,
    returns (fun fuel => main H m fuel dup cwd (std_packer ls fuel m) (Exiso (mkEx None false false false (ModeC src (Some i) []))) w) (mkProcess w1 [] None (Some 0))
   /\ returns (fun fuel => main H m fuel dup cwd (std_packer ls fuel m) (Exiso (mkEx None false false false (ModeX [i]))) w1) (mkProcess w2 [] None (Some 0))
   /\ (forall q, w_fs w2 ((cwd ++ [s]) ++ q) = w_fs w (p ++ q)) /\ untouched p (w_fs w) (w_fs w2).
Proof.
  intros Hcwd HL HR Hd HC HU Hne Hpl Hst Hus Hfree Hdiff Hl (A1 & A2). pose proof HC as (Hc & HH & HS & Hrep & (G1 & _) & G2 & dir' & n' & G3 & G4 & G5). cbn [c_dir c_file c_at c_out c_tree] in *.
  set (j := mkCjob src (Some i) p (place cwd i) t) in *.
  destruct (create_jobs m ls cwd [j] Hcwd w HL HR (Forall_cons _ HC (Forall_nil _))) as (w1 & (k1 & R1) & L1 & RT1 & T1 & O1).
  { cbn [map]. constructor; [intros []|constructor]. }
  { intros a b [<-|[]] [<-|[]]. exact Hl. }
  destruct (T1 j (or_introl eq_refl)) as (img & F1 & Hpk). cbn [j c_out c_tree] in F1, Hpk.
  assert (O1' : forall z, z <> place cwd i -> w_fs w1 z = w_fs w z) by (intros z Hz; apply O1; cbn [map j c_out]; intros [E|[]]; congruence).
  destruct (G2 i eq_refl) as (G6 & G7).
  assert (HW : ready_for_file cwd i w) by (unfold ready_for_file; ssplit; auto; exists dir', n'; ssplit; auto; rewrite <- G3; exact G5).
  assert (Hc1 : canonicalize (w_fs w1) cwd i = Ok (place cwd i)) by (apply (ready_canonical cwd i w (w_fs w1) img HW O1' F1)).
  assert (Hcw : cwd <> place cwd i) by (intros E; rewrite <- E in G5; congruence).
  destruct (c104_lemma cwd [mkJob i img t s] w1 L1 RT1) as (w2 & (k2 & R2) & T2 & O2).
  { rewrite O1' by exact Hcw. exact Hd. }
  { constructor; [|constructor]. unfold extractable. cbn [j_path j_file j_tree j_stem]. ssplit; auto.
    - exists dir, n. rewrite <- Hpl. ssplit; auto.
    - apply (packed_is_image m t img HS Hpk).
    - rewrite O1' by auto. exact Hfree. }
  { cbn [map]. constructor; [intros []|constructor]. }
  exists w1, w2. ssplit.
  - cbn [main]. unfold run_exiso_program, run_exiso_command. cbn [x_mode x_directory x_delete]. apply (hosted_run (fun fuel => exiso_create cwd (std_packer ls fuel m) src (Some i) [])).
    exists k1. intros fuel Hf. rewrite <- (R1 fuel Hf). reflexivity.
  - cbn [main]. unfold run_exiso_program, run_exiso_command. cbn [x_mode x_directory x_delete]. apply (quietly_run (fun fuel => exiso_extract fuel cwd None [i])).
    exists k2. intros fuel Hf. apply (R2 fuel Hf).
  - destruct (T2 _ (or_introl eq_refl)) as (T3 & T4). cbn [j_stem j_tree] in T3, T4. intros q. destruct HH as (H1 & H2 & _). destruct (w_fs w (p ++ q)) as [x|] eqn:E.
    + destruct (H2 _ _ E) as (t' & Hat). rewrite (T3 _ _ Hat). rewrite (H1 _ _ Hat) in E. exact E.
    + destruct (w_fs w2 ((cwd ++ [s]) ++ q)) as [y|] eqn:Ey; [|reflexivity]. destruct (T4 _ _ Ey) as (t' & Hat). rewrite (H1 _ _ Hat) in E. discriminate.
  - intros q Hq. rewrite O2; [apply O1'; intros ->; auto|]. intros a [<-|[]] Hs. cbn [j_stem] in Hs. destruct (leads_two _ _ _ Hq Hs); auto.
Qed.

Lemma c149_copy_dir_lemma H m dup pk cwd s ip file src dest t cs w : canonicalize (w_fs w) cwd s = Ok ip -> w_fs w ip = Some (HFile file) -> is_image file t -> unix_tree t -> S_Cli.selects_dir t src cs -> ready_for cwd dest (FDir cs) w ->
  exists w', returns (fun fuel => main H m fuel dup cwd pk (Core (inl (CopyOut s src dest))) w) (mkProcess w' [] None (Some 0))
    /\ restored (place cwd dest) (FDir cs) (w_fs w) (w_fs w').
Proof.
  intros A B C D E F. destruct (c117_dir_lemma dup cwd s ip file src dest t cs w A B C D E F) as (w' & R & T). exists w'. split; [|exact T]. cbn [main run_command].
  apply (quietly_run (fun fuel => copyout_dup fuel dup cwd s src dest)). exact R.
Qed.

Lemma c149_failed_lemma H m fuel dup pk cwd w d del q qa x p o b : Forall unix_name cwd -> canonicalize (w_fs w) cwd x = Ok p -> w_fs w p = Some (HFile b) -> moved_to p o ->
  let r := main H m fuel dup cwd pk (Exiso (mkEx d del q qa (ModeR [x]))) w in
  ~ exits_ok r -> w_fs (p_world r) p = Some (HFile b) \/ w_fs (p_world r) o = Some (HFile b).
Proof.
  intros Hcwd Hc Hb Hm. cbv zeta. cbn [main]. unfold run_exiso_program, run_exiso_command. cbn [x_mode x_directory x_delete x_quiet_error x_quiet_all]. unfold hosted, quietly, uhost.
  pose proof (c51_one cwd pk d false x w p o b Hcwd Hc Hb Hm) as K. unfold kept in K. assert (K' : w_fs (fst (exiso_repack cwd pk d false [x] w)) p = Some (HFile b) \/ w_fs (fst (exiso_repack cwd pk d false [x] w)) o = Some (HFile b))
    by (destruct K as [K|[K|(K & _)]]; [auto|auto|discriminate]). clear K.
  assert (E : forall y : world * res herr unit, p_world (finish_with (q || qa) ((fst y, []), map_err UHost (snd y))) = fst y) by (intros [w0 [[]|e|e|]]; reflexivity).
  rewrite E. destruct del; [|intros _; exact K']. rewrite keep_run, (delete_run cwd pk d x w p o b Hcwd Hc Hb Hm). destruct (exiso_repack cwd pk d false [x] w) as [w1 [[]|e|e|]]; cbn [fst] in K'; try (intros _; exact K').
  unfold remove_file. destruct (w_fs w1 o) as [[|b']|] eqn:Eo; cbn [fst]; rewrite ?Eo; try (intros _; exact K').
  destruct (spend w1 1 <? 1); cbn [fst]; rewrite ?Eo; [intros _; exact K'|]. intros N. destruct N. reflexivity.
Qed.
