(** Proofs about compressing (C106-C108). *)
From Verif Require Import M_Base M_Util M_Layout M_Read M_Img M_Dev M_Xfs M_Remap M_Cli M_Unpack M_Exiso M_Host M_Cso.
From Verif Require Import S_Codec S_Read S_Img S_Check S_Cli S_Unpack S_Exiso S_Fault S_Cso P_Base P_Find P_Src P_Host P_Exiso P_Stdfs P_Fault.
From Coq Require Import Init.Byte Lia.
From Coq Require Import List.
Local Open Scope N_scope.

Lemma str_eqb_same a : str_eqb a a = true.
Proof. apply str_eqb_spec. reflexivity. Qed.
Lemma pcomp_eqb_spec a b : pcomp_eqb a b = true <-> a = b.
Proof.
  destruct a, b; cbn; split; intros H; try discriminate; auto; [apply str_eqb_spec in H; congruence|]. injection H as ->. apply str_eqb_same.
Qed.
Lemma comps_start_spec p q : comps_start_with p q = true <-> exists c, p = q ++ c.
Proof.
  revert p; induction q as [|b q IH]; intros p; cbn [comps_start_with app]; [split; [intros _; exists p; reflexivity|auto]|].
  destruct p as [|a p]; [split; [discriminate|intros (c & H); discriminate]|]. rewrite andb_true_iff, pcomp_eqb_spec, IH. split.
  - intros (-> & c & ->). exists c. reflexivity.
  - intros (c & H). injection H as -> ->. split; [reflexivity|exists c; reflexivity].
Qed.

Lemma relative_start s : (forall r, s <> 47 :: r) -> is_absolute s = false.
Proof. destruct s as [|c s]; [reflexivity|]. intros H. cbn. apply N.eqb_neq. intros ->. apply (H s). reflexivity. Qed.
Lemma split_head s : exists c cs, split_slash s = c :: cs /\ ((s = c /\ cs = []) \/ exists r, s = c ++ 47 :: r).
Proof.
  induction s as [|x s IH]; [exists [], []; auto|]. cbn [split_slash]. destruct IH as (c & cs & E & H). destruct (N.eqb_spec x SLASH) as [->|Hx].
  - eexists [], _. split; [reflexivity|]. right. exists s. reflexivity.
  - rewrite E. exists (x :: c), cs. split; [reflexivity|]. destruct H as [(-> & ->)|(r & ->)]; [left; auto|right; exists r; reflexivity].
Qed.
Lemma plain_comps s : plainly s -> path_comps s = (if is_absolute s then [PRoot] else []) ++ map PName (pcomps s).
Proof.
  intros (_ & H). unfold path_comps. destruct (is_absolute s) eqn:Ea; [reflexivity|]. destruct (split_head s) as (c & cs & E & K). rewrite E. destruct (is_dot c) eqn:Ed; [|reflexivity].
  apply str_eqb_spec in Ed. subst c. destruct K as [(-> & _)|(r & ->)]; exfalso; [apply (proj1 (H [])); reflexivity|apply (proj2 (H r)); reflexivity].
Qed.

(** C106 *)
Lemma c106_lemma cwd cp source image w : spelled_alike source image -> leads_to (place cwd source) (place cwd image) ->
  fst (cmd_compress cwd cp source (Some image) w) = w /\ snd (cmd_compress cwd cp source (Some image) w) <> Ok tt.
Proof.
  intros (P1 & P2 & HS) (c & Hc).
  assert (E : comps_start_with (path_comps image) (path_comps source) = true).
  { apply comps_start_spec. rewrite !plain_comps by auto. unfold place in Hc. assert (A : is_absolute image = is_absolute source /\ hstart cwd image = hstart cwd source).
    { unfold hstart. destruct HS as [(r & r' & -> & ->)|(H1 & H2)]; [auto|]. rewrite (relative_start _ H1), (relative_start _ H2). auto. }
    destruct A as (-> & A). rewrite A in Hc. rewrite <- app_assoc in Hc. apply app_inv_head in Hc. rewrite Hc, map_app, app_assoc. eexists. reflexivity. }
  unfold cmd_compress, hbind, hres. destruct (existing (w_fs w) cwd source) as [[p n]|e|e|]; try (split; [reflexivity|discriminate]). rewrite E.
  match goal with |- context [if exists_at ?h ?c ?i then ?a else ?b] => destruct (if exists_at h c i then a else b) as [[]|e|e|] end; split; try reflexivity; discriminate.
Qed.

(** C107 *)
Lemma file_name_some s n : ends_in s n -> file_name s = Some n.
Proof.
  intros (i & E & Hn). unfold file_name. rewrite E, rev_app_distr. cbn [rev app]. rewrite is_dotdot_false by exact Hn. reflexivity.
Qed.
Lemma file_name_none s : nameless s -> file_name s = None.
Proof. intros [E|(i & E)]; unfold file_name; rewrite E; [reflexivity|]. rewrite rev_app_distr. reflexivity. Qed.
Lemma named_or_not s : nameless s \/ exists n, ends_in s n.
Proof.
  destruct (split_last_case (pcomps s)) as [(E & _)|(i & c & E & _)]; [left; left; exact E|]. destruct (str_eqb c [46; 46]) eqn:Ec.
  - apply str_eqb_spec in Ec. subst c. left. right. exists i. exact E.
  - right. exists c, i. split; [exact E|]. intros ->. rewrite str_eqb_same in Ec. discriminate.
Qed.
Lemma c107_panics cwd cp source w p : canonicalize (w_fs w) cwd source = Ok p -> w_fs w p <> None -> nameless source ->
  cmd_compress cwd cp source None w = (w, Panic PUnwrap).
Proof.
  intros Hc Hp Hn. unfold cmd_compress, hbind, hres, existing. rewrite Hc. cbn [bind]. destruct (w_fs w p) as [x|]; [|congruence]. cbn [ok_or bind]. unfold default_cso_path. rewrite (file_name_none _ Hn). reflexivity.
Qed.
Lemma c107_default cwd cp source w p x n : canonicalize (w_fs w) cwd source = Ok p -> w_fs w p = Some x -> ends_in source n ->
  exists i, (match x with HDir => i = n ++ [46; 99; 115; 111] | HFile _ => new_ext [99; 115; 111] n i end) /\ cmd_compress cwd cp source None w = cmd_compress cwd cp source (Some i) w.
Proof.
  intros Hc Hp Hn. exists (with_extension n CSO (is_hdir x)). split.
  - destruct x; cbn [is_hdir with_extension]; [reflexivity|apply name_with_ext_ok].
  - unfold cmd_compress, hbind, hres, existing. rewrite Hc. cbn [bind]. rewrite Hp. cbn [ok_or bind]. unfold default_cso_path. rewrite (file_name_some _ _ Hn). reflexivity.
Qed.
Lemma hwalk_calm h cs : forall cur, match hwalk h cur cs with Panic _ => False | _ => True end.
Proof. induction cs as [|c cs IH]; intros cur; cbn [hwalk]; [exact I|]. destruct (is_dotdot c); [apply IH|]. destruct (h (cur ++ [c])) as [[|]|]; [apply IH|exact I|exact I]. Qed.
Lemma canonicalize_calm h cwd s : match canonicalize h cwd s with Panic _ => False | _ => True end.
Proof.
  unfold canonicalize. destruct (has_nul (pcomps s)); [exact I|]. destruct s as [|c0 s0]; [exact I|]. unfold hlocate. destruct (split_last (pcomps (c0 :: s0))) as [[i c]|]; [|exact I].
  pose proof (hwalk_calm h i (hstart cwd (c0 :: s0))) as K. destruct (hwalk h (hstart cwd (c0 :: s0)) i) as [d|e|e|]; cbn [bind]; try exact I; [|contradiction]. destruct (is_dotdot c); cbn [bind]; [exact I|].
  destruct (h (d ++ [c])) as [[|b]|]; try exact I. destruct (dirlike _); exact I.
Qed.
Lemma c107_no_panic cwd cp source image w : (forall i p w, match snd (cp i p w) with Panic _ => False | _ => True end) ->
  image <> None \/ (exists n, ends_in source n) -> match snd (cmd_compress cwd cp source image w) with Panic _ => False | _ => True end.
Proof.
  intros Hcp Hi. assert (C : match canonicalize (w_fs w) cwd source with Panic _ => False | _ => True end).
  { apply canonicalize_calm. }
  unfold cmd_compress, hbind, hres, existing. destruct (canonicalize (w_fs w) cwd source) as [p|e|e|]; try exact I; [|contradiction]. cbn [bind]. destruct (w_fs w p) as [x|]; [|exact I]. cbn [ok_or bind].
  assert (D : exists i, match image with Some i => Ok i | None => unwrap (default_cso_path source (is_hdir x)) end = (Ok i : res herr str)).
  { destruct image as [i|]; [exists i; reflexivity|]. destruct Hi as [Hi|(n & Hn)]; [congruence|]. unfold default_cso_path. rewrite (file_name_some _ _ Hn). eexists. reflexivity. }
  destruct D as (i & ->). unfold exists_at, absolute_path. destruct (canonicalize (w_fs w) cwd i) as [a|e|e|]; cbn [bind]; [destruct (comps_eqb _ _); [exact I|]| | |];
    (destruct (comps_start_with _ _); [exact I|apply Hcp]).
Qed.

(** C108 *)
Lemma ext_spec s : match last_ext s with Some e => exists a, s = a ++ 46 :: e /\ ~ In 46 e | None => ~ In 46 s end.
Proof.
  induction s as [|c s IH]; [intros []|]. cbn [last_ext]. destruct (last_ext s) as [e|].
  - destruct IH as (a & -> & He). exists (c :: a). auto.
  - destruct (N.eqb_spec c DOT) as [->|Hn]; [exists []; auto|]. intros [H|H]; [destruct Hn; auto|auto].
Qed.
Lemma name_ext_app a e : a <> [] -> ~ In 46 e -> name_ext (a ++ 46 :: e) = Some e.
Proof.
  intros Ha He. unfold name_ext. pose proof (ext_spec (a ++ 46 :: e)) as H. destruct (last_ext (a ++ 46 :: e)) as [e'|].
  - destruct H as (a' & E & He'). destruct (last_dot _ _ _ _ E He He') as (<- & <-). destruct (str_eqb _ _) eqn:Eq; [|reflexivity]. apply str_eqb_spec in Eq. destruct (last_dot a e [] e Eq He He) as (-> & _). congruence.
  - destruct H. apply in_or_app. right. left. reflexivity.
Qed.
Lemma stem_app a e : a <> [] -> ~ In 46 e -> file_stem (a ++ 46 :: e) = a.
Proof.
  intros Ha He. unfold file_stem. pose proof (drop_ext_spec (a ++ 46 :: e)) as H. destruct (drop_ext (a ++ 46 :: e)) as [t|].
  - destruct H as (e' & E & He'). destruct (last_dot _ _ _ _ E He He') as (<- & _). destruct a; [congruence|reflexivity].
  - destruct H. apply in_or_app. right. left. reflexivity.
Qed.
Lemma parts_run h dir x k : x <> [] -> forall j, (forall i, (j <= i < j + k)%nat -> h (dir ++ [part_name x (N.of_nat i)]) <> None) -> h (dir ++ [part_name x (N.of_nat (j + k))]) = None ->
  forall fuel, (k < fuel)%nat -> cso_parts fuel h dir (x ++ [46; 49]) (N.of_nat j) = Ok (map (fun i => dir ++ [part_name x (N.of_nat i)]) (seq j k)).
Proof.
  intros Hx. induction k as [|k IH]; intros j H1 H2 fuel Hf; (destruct fuel as [|fuel]; [lia|]); cbn [cso_parts].
  all: assert (E : name_with_ext (x ++ [46; 49]) (decimal (N.of_nat j) ++ [DOT] ++ CSO) = part_name x (N.of_nat j)).
  1,3: unfold name_with_ext; rewrite stem_app by (auto; intros [E|[]]; discriminate); reflexivity.
  all: rewrite E.
  - rewrite Nat.add_0_r in H2. rewrite H2. reflexivity.
  - destruct (h (dir ++ [part_name x (N.of_nat j)])) eqn:Eh; [|destruct (H1 j); [lia|exact Eh]]. replace (N.of_nat j + 1) with (N.of_nat (S j)) by lia. rewrite (IH (S j)); [reflexivity| | |lia].
    + intros i Hi. apply H1. lia.
    + rewrite <- H2. f_equal. f_equal. f_equal. f_equal. lia.
Qed.
Lemma c108_lemma h dir x k : x <> [] -> (forall i, (1 <= i <= k)%nat -> h (dir ++ [part_name x (N.of_nat i)]) <> None) -> h (dir ++ [part_name x (N.of_nat (S k))]) = None ->
  returns (fun fuel => open_image_files fuel h dir (part_name x 1)) (match k with O => Err HNotFound | _ => Ok (Compressed (part_places dir x k)) end).
Proof.
  intros Hx H1 H2. exists (S k). intros fuel Hf. unfold open_image_files. assert (E : part_name x 1 = (x ++ [46; 49]) ++ 46 :: CSO) by (unfold part_name; rewrite <- app_assoc; reflexivity).
  rewrite E. rewrite name_ext_app by (try (destruct x; discriminate); intros H; repeat (destruct H as [H|H]; [discriminate|]); contradiction). rewrite str_eqb_same.
  rewrite stem_app by (try (destruct x; discriminate); intros H; repeat (destruct H as [H|H]; [discriminate|]); contradiction).
  rewrite name_ext_app by (auto; intros [H|[]]; discriminate). rewrite str_eqb_same. change 1 with (N.of_nat 1) at 1.
  rewrite (parts_run h dir x k Hx 1 ltac:(intros i Hi; apply H1; lia) H2 fuel ltac:(lia)). cbn [bind]. destruct k; reflexivity.
Qed.

Lemma honest_compress cwd cp source image : (forall i p, honest (cp i p)) -> honest (cmd_compress cwd cp source image).
Proof.
  intros Hcp. unfold cmd_compress. apply honest_bind; [apply (honest_fs (fun h => existing h cwd source))|]. intros [p n].
  apply honest_bind; [apply honest_res; reflexivity|]. intros i.
  apply honest_bind; [apply (honest_fs (fun h => if exists_at h cwd i then let* a := absolute_path h cwd i in if comps_eqb (path_comps (pstr a)) (path_comps source) then Err HRefused else Ok tt else Ok tt))|].
  intros _. destruct (comps_start_with _ _); [apply honest_res; reflexivity|apply Hcp].
Qed.

(** What is not refused is compressed. *)
Lemma plain_named s : plainly s -> is_absolute s = false -> s <> [] -> pcomps s <> [].
Proof.
  intros (_ & H) Ha Hn. destruct (split_head s) as (c & cs & E & K). unfold pcomps. rewrite E. cbn [filter].
  assert (Hc : c <> [] /\ c <> [46]).
  { destruct K as [(-> & _)|(r & ->)]; [split; [exact Hn|apply (H [])]|]. split; intros ->; [discriminate Ha|apply (proj2 (H r)); reflexivity]. }
  destruct c as [|a c]; [destruct Hc; congruence|]. destruct (is_dot (a :: c)) eqn:Ed; [apply str_eqb_spec in Ed; destruct Hc; contradiction|discriminate].
Qed.
Lemma pstr_comps p : Forall unix_name p -> path_comps (pstr p) = PRoot :: map PName p.
Proof.
  intros Hp. destruct p as [|n p]; [reflexivity|]. unfold path_comps. rewrite pstr_slashed by discriminate. rewrite pcomps_slashed by auto. reflexivity.
Qed.
Lemma map_name_inj a b : map PName a = map PName b -> a = b.
Proof. revert b. induction a as [|x a IH]; intros [|y b] E; try discriminate; [reflexivity|]. injection E as -> E. f_equal. auto. Qed.
Lemma map_name_app a b c : map PName a = map PName b ++ c -> exists d, a = b ++ d.
Proof.
  revert a. induction b as [|x b IH]; intros a E; [exists a; reflexivity|]. destruct a as [|y a]; [discriminate|]. injection E as -> E. apply IH in E as (d & ->). exists d. reflexivity.
Qed.
Lemma c106_accepted cwd cp source image w p : Forall unix_name cwd -> canonicalize (w_fs w) cwd source = Ok p -> w_fs w p <> None -> plainly source -> plainly image ->
  ~ leads_to (place cwd source) (place cwd image) -> cmd_compress cwd cp source (Some image) w = cp image p w.
Proof.
  intros Hcwd Hc Hp P1 P2 HL. unfold cmd_compress, hbind, hres, existing. rewrite Hc. cbn [bind]. destruct (w_fs w p) as [x|]; [|congruence]. cbn [ok_or bind].
  assert (E1 : (if exists_at (w_fs w) cwd image then let* a := absolute_path (w_fs w) cwd image in if comps_eqb (path_comps (pstr a)) (path_comps source) then Err HRefused else Ok tt else Ok tt) = (Ok tt : res herr unit)).
  { unfold exists_at, absolute_path. destruct (canonicalize (w_fs w) cwd image) as [a|e|e|] eqn:Ea; try reflexivity. cbn [bind]. destruct (comps_eqb _ _) eqn:Eq; [|reflexivity]. exfalso.
    pose proof (no_dotdot_canonicalize _ _ _ _ (proj1 P2) Ea) as Epl. pose proof (canonical_names _ _ _ _ Hcwd Ea) as Hn.
    unfold comps_eqb in Eq. apply andb_true_iff in Eq as (X & Y). apply comps_start_spec in X as (c & X), Y as (c' & Y). rewrite X in Y. rewrite <- app_assoc in Y. symmetry in Y.
    assert (Z : c = []). { rewrite <- (app_nil_r (path_comps source)) in Y at 2. apply app_inv_head in Y. destruct c; [reflexivity|discriminate]. }
    subst c. rewrite app_nil_r in X. rewrite pstr_comps in X by exact Hn. rewrite plain_comps in X by exact P1. apply HL. exists []. rewrite app_nil_r, <- Epl. unfold place, hstart.
    destruct (is_absolute source); [injection X as X; apply map_name_inj in X; exact X|]. destruct (pcomps source); discriminate X. }
  rewrite E1. destruct (comps_start_with (path_comps image) (path_comps source)) eqn:E2; [|reflexivity]. exfalso. apply comps_start_spec in E2 as (c & E2). rewrite !plain_comps in E2 by auto. apply HL.
  assert (Hs : is_absolute source = false -> pcomps source <> []) by (intros Ha; apply plain_named; auto; intros ->; unfold canonicalize in Hc; discriminate Hc).
  unfold place, hstart. destruct (is_absolute source), (is_absolute image).
  - injection E2 as E2. apply map_name_app in E2 as (d & ->). exists d. reflexivity.
  - destruct (pcomps image); discriminate E2.
  - destruct (pcomps source); [destruct (Hs eq_refl); reflexivity|discriminate E2].
  - apply map_name_app in E2 as (d & E2). exists d. rewrite E2, app_assoc. reflexivity.
Qed.
