(** Proofs about M_Exiso: pack path checks and extract-xiso (C50, C51, C71-C73). *)
From Verif Require Import M_Base M_Util M_Layout M_Read M_Img M_Dev M_Xfs M_Remap M_Cli M_Host M_Unpack M_Exiso.
From Verif Require Import S_Avl S_Codec S_Table S_Read S_Img S_Dev S_Trie S_Xfs S_Check S_Cli S_Unpack S_Exiso P_Base P_Tree P_Pack P_Image P_Packed P_More P_Xfs P_Ext P_Check P_Repack P_Compress P_Host.
From Verif Require Import M_Host.
From Coq Require Import Init.Byte.
Local Open Scope N_scope.

(** ** Extensions *)
Lemma drop_ext_spec s : match drop_ext s with Some t => exists e, s = t ++ 46 :: e /\ ~ In 46 e | None => ~ In 46 s end.
Proof.
  induction s as [|c s IH]; [intros []|]. cbn [drop_ext]. destruct (drop_ext s) as [t|].
  - destruct IH as (e & -> & He). exists e. auto.
  - destruct (N.eqb_spec c DOT) as [->|Hn]; [exists s; auto|]. intros [H|H]; [destruct Hn; auto|auto].
Qed.
Lemma name_with_ext_ok ext n : new_ext ext n (name_with_ext n ext).
Proof.
  unfold name_with_ext, file_stem. pose proof (drop_ext_spec n) as H. destruct (drop_ext n) as [[|c t]|].
  - destruct H as (e & -> & He). right. cbn [app]. split; [right; exists e; auto|reflexivity].
  - destruct H as (e & -> & He). left. exists (c :: t), e. ssplit; auto. discriminate.
  - right. split; auto.
Qed.
Lemma last_dot (a e a' e' : str) : a ++ 46 :: e = a' ++ 46 :: e' -> ~ In 46 e -> ~ In 46 e' -> a = a' /\ e = e'.
Proof.
  revert a'; induction a as [|c a IH]; intros [|c' a'] H He He'; cbn [app] in H.
  - injection H as ->. auto.
  - injection H as <- ->. destruct He. apply in_or_app. right. left. reflexivity.
  - injection H as -> <-. destruct He'. apply in_or_app. right. left. reflexivity.
  - injection H as -> H. destruct (IH a' H He He') as (-> & ->). auto.
Qed.
Lemma new_ext_fun ext n a b : new_ext ext n a -> new_ext ext n b -> a = b.
Proof.
  assert (K : forall a e, a <> [] -> ~ In 46 e -> ~ (~ In 46 (a ++ 46 :: e) \/ exists e', a ++ 46 :: e = 46 :: e' /\ ~ In 46 e')).
  { intros x e Hx He [H|(e' & H & H')]; [apply H, in_or_app; right; left; reflexivity|]. destruct (last_dot x e [] e' H He H') as (-> & _). congruence. }
  intros [(x & e & -> & Hx & He & ->)|(H & ->)] [(y & e' & E & Hy & He' & ->)|(H' & ->)]; auto.
  - destruct (last_dot _ _ _ _ E He He') as (-> & _). reflexivity.
  - destruct (K x e Hx He H').
  - subst n. destruct (K y e' Hy He' H).
Qed.

(** ** Canonical paths *)
Lemma open_case cwd s w w' r : open_trunc cwd s w = (w', r) ->
  match r with
  | Ok p => w_fs w p <> Some HDir /\ w_fs w' = hset (w_fs w) p (HFile []) /\ (no_dotdot s -> p = place cwd s)
            /\ s <> [] /\ (canonicalize (w_fs w) cwd s = Ok p \/ ((forall q, canonicalize (w_fs w) cwd s <> Ok q) /\ w_fs w p = None))
  | _ => w_fs w' = w_fs w
  end.
Proof.
  unfold open_trunc, canonicalize. destruct (has_nul (pcomps s)) eqn:En; [intros H; injection H as <- <-; reflexivity|].
  destruct s as [|c0 s0]; [intros H; injection H as <- <-; reflexivity|]. set (s := c0 :: s0) in *. destruct (dirlike s); [intros H; injection H as <- <-; reflexivity|].
  pose proof (hlocate_case (w_fs w) (hstart cwd s) (pcomps s)) as L.
  destruct (hlocate (w_fs w) (hstart cwd s) (pcomps s)) as [[d [c|]]|e|e|]; try (intros H; injection H as <- <-; reflexivity). cbn [bind].
  assert (P : no_dotdot s -> d ++ [c] = place cwd s).
  { intros Hd. destruct (L Hd) as (i & Ei & ->). unfold place. rewrite Ei, app_assoc. reflexivity. }
  assert (Hs : s <> []) by discriminate.
  destruct (w_fs w (d ++ [c])) as [[|b]|] eqn:E; [intros H; injection H as <- <-; reflexivity| |];
    (destruct (spend w 1 <? 1); intros H; injection H as <- <-; [reflexivity|]); ssplit; auto; try congruence; try reflexivity.
  right. split; [intros q Hq; discriminate|exact E].
Qed.

Lemma hwalk_more (h h' : host) (cs : list str) : (forall q, h q = Some HDir -> h' q = Some HDir) -> forall cur p, hwalk h cur cs = Ok p -> hwalk h' cur cs = Ok p.
Proof.
  intros K. induction cs as [|c cs IH]; intros cur p H; cbn [hwalk] in *; [exact H|]. destruct (is_dotdot c); [apply IH, H|].
  destruct (h (cur ++ [c])) as [[|b]|] eqn:E; try discriminate. rewrite (K _ E). apply IH, H.
Qed.
Lemma canonicalize_more (h h' : host) cwd s p : (forall q, h q = Some HDir -> h' q = Some HDir) ->
  canonicalize h cwd s = Ok p -> (forall b, h p = Some (HFile b) -> exists b', h' p = Some (HFile b')) -> canonicalize h' cwd s = Ok p.
Proof.
  intros K. unfold canonicalize. destruct (has_nul (pcomps s)); [discriminate|]. destruct s as [|c0 s0]; [discriminate|]. set (s := c0 :: s0).
  unfold hlocate. destruct (split_last (pcomps s)) as [[i c]|]; [|cbn [bind]; auto].
  destruct (hwalk h (hstart cwd s) i) as [d|e|e|] eqn:E; try discriminate. rewrite (hwalk_more h h' i K _ _ E). cbn [bind]. destruct (is_dotdot c); cbn [bind]; auto.
  destruct (h (d ++ [c])) as [[|b]|] eqn:Eh; try discriminate.
  - rewrite (K _ Eh). auto.
  - destruct (dirlike s) eqn:Ed; [discriminate|]. intros H Hf. injection H as <-. destruct (Hf b Eh) as (b' & ->). reflexivity.
Qed.

Lemma starts_with_spec p q : starts_with p q = true <-> leads_to q p.
Proof.
  revert p; induction q as [|b q IH]; intros p; cbn [starts_with]; [split; [intros _; exists p; reflexivity|auto]|].
  destruct p as [|a p].
  { split; intros H; [discriminate|destruct H as (c & Hc); discriminate]. }
  rewrite andb_true_iff, str_eqb_spec, IH. split.
  - intros (-> & c & ->). exists c. reflexivity.
  - intros (c & Hc). cbn [app] in Hc. injection Hc as -> ->. split; auto. exists c. reflexivity.
Qed.

(** ** cmd_pack_path *)
Definition packed_to (pk : packer) (h : host) (source o : list str) : host :=
  hset (hset h o (HFile [])) o (HFile (fst (pk (hset h o (HFile [])) source))).
Lemma pack_step cwd pk source image w w' r : cmd_pack_path cwd pk source image w = (w', r) ->
  (w_fs w' = w_fs w /\ r <> Ok tt)
  \/ exists o, o <> source /\ w_fs w source <> None /\ w_fs w o <> Some HDir
     /\ w_fs w' = packed_to pk (w_fs w) source o /\ r = snd (pk (hset (w_fs w) o (HFile [])) source)
     /\ (no_dotdot image -> o = place cwd image /\ ~ leads_to source o).
Proof.
  unfold cmd_pack_path, hbind, hres, ok_or. destruct (w_fs w source) as [n|] eqn:Es; cbv beta iota zeta; [|intros H; injection H as <- <-; left; split; [reflexivity|discriminate]].
  match goal with |- match ?x with _ => _ end = _ -> _ => destruct x as [[]|e|e|] eqn:E1 end; try (intros H; injection H as <- <-; left; split; [reflexivity|discriminate]).
  match goal with |- match ?x with _ => _ end = _ -> _ => destruct x as [[]|e|e|] eqn:E2 end; try (intros H; injection H as <- <-; left; split; [reflexivity|discriminate]).
  destruct (open_trunc cwd image w) as [w1 [o|e|e|]] eqn:E3; apply open_case in E3; try (intros H; injection H as <- <-; left; split; [exact E3|discriminate]).
  destruct E3 as (F1 & F2 & F3 & F4 & F5). cbv beta. destruct (pk (w_fs w1) source) as [b r'] eqn:Ek. intros H. injection H as <- <-. right. exists o.
  rewrite F2 in Ek. unfold packed_to. rewrite Ek. cbn [after w_fs fst snd]. ssplit; auto.
  - intros ->. destruct F5 as [F5|(_ & F5)]; [|congruence]. unfold exists_at, absolute_path in E1. rewrite F5 in E1. cbn [bind] in E1.
    destruct (hpath_eqb_spec source source); [discriminate|congruence].
  - congruence.
  - rewrite F2. reflexivity.
  - intros Hd. specialize (F3 Hd). split; [exact F3|]. intros Hl. apply starts_with_spec in Hl. unfold absolute_path in E2. destruct F5 as [F5|(F5 & _)].
    + rewrite F5 in E2. cbn [bind] in E2. rewrite Hl in E2. discriminate.
    + destruct (canonicalize (w_fs w) cwd image) as [q| | |]; [destruct (F5 q eq_refl)| | |];
        (unfold path_absolute in E2; destruct image; [congruence|]; cbn [bind] in E2; fold (place cwd (n0 :: image)) in E2; rewrite <- F3, Hl in E2; discriminate).
Qed.
Lemma packed_eq pk h source o : packed_to pk h source o o = Some (HFile (fst (pk (hset h o (HFile [])) source))).
Proof. apply hset_eq. Qed.
Lemma packed_neq pk h source o q : q <> o -> packed_to pk h source o q = h q.
Proof. intros H. unfold packed_to. rewrite !hset_neq; auto. Qed.

(** ** C72: the source stays as it is *)
Lemma cmd_pack_step cwd pk source image w w' r : cmd_pack cwd pk source image w = (w', r) ->
  (w_fs w' = w_fs w /\ r <> Ok tt)
  \/ exists p n i, canonicalize (w_fs w) cwd source = Ok p /\ w_fs w p = Some n
     /\ match image with Some i0 => i = i0 | None => default_image_path (w_fs w) cwd p (is_hdir n) = Ok i end
     /\ cmd_pack_path cwd pk p i w = (w', r).
Proof.
  unfold cmd_pack, hbind, hres, existing. destruct (canonicalize (w_fs w) cwd source) as [p|e|e|] eqn:Ec; cbn [bind];
    try (intros H; injection H as <- <-; left; split; [reflexivity|discriminate]).
  unfold ok_or. destruct (w_fs w p) as [n|] eqn:En; cbn [bind]; [|intros H; injection H as <- <-; left; split; [reflexivity|discriminate]].
  destruct image as [i|]; [intros H; right; exists p, n, i; auto|].
  destruct (default_image_path (w_fs w) cwd p (is_hdir n)) as [i|e|e|] eqn:Ei; try (intros H; injection H as <- <-; left; split; [reflexivity|discriminate]).
  intros H; right; exists p, n, i; auto.
Qed.
Lemma packed_only pk h source o : h o <> Some HDir -> changes_only o h (packed_to pk h source o).
Proof.
  intros H q. destruct (hpath_eqb_spec q o) as [->|Hq]; [|left; apply packed_neq; auto]. right. rewrite packed_eq. ssplit; eauto.
Qed.
Lemma pack_one_file cwd pk source image w w' r : cmd_pack cwd pk source image w = (w', r) -> exists o, changes_only o (w_fs w) (w_fs w').
Proof.
  intros H. apply cmd_pack_step in H as [(-> & _)|(p & n & i & _ & _ & _ & H)]; [exists []; intros q; auto|].
  apply pack_step in H as [(-> & _)|(o & H1 & H2 & H3 & -> & _)]; [exists []; intros q; auto|]. exists o. apply packed_only. exact H3.
Qed.
Lemma c72_file cwd pk source image w p b : canonicalize (w_fs w) cwd source = Ok p -> w_fs w p = Some (HFile b) ->
  w_fs (fst (cmd_pack cwd pk source image w)) p = Some (HFile b).
Proof.
  intros Hc Hb. destruct (cmd_pack cwd pk source image w) as [w' r] eqn:E. cbn [fst]. apply cmd_pack_step in E as [(-> & _)|(p' & n & i & H1 & _ & _ & H)]; [exact Hb|].
  assert (p' = p) as -> by congruence. apply pack_step in H as [(-> & _)|(o & F1 & F2 & F3 & -> & _)]; [exact Hb|]. rewrite packed_neq by auto. exact Hb.
Qed.

Lemma split_no_slash s : Forall (fun c => ~ In 47 c) (split_slash s).
Proof.
  induction s as [|c s IH]; cbn [split_slash]; [repeat constructor; intros []|]. destruct (N.eqb_spec c SLASH) as [->|Hn]; [constructor; [intros []|exact IH]|].
  destruct (split_slash s) as [|x l]; [constructor; [intros [H|[]]; destruct Hn; exact H|constructor]|]. constructor; [|exact (Forall_inv_tail IH)]. intros [H|H]; [destruct Hn; exact H|exact (Forall_inv IH H)].
Qed.
Lemma pcomps_no_slash s : Forall (fun c => ~ In 47 c) (pcomps s).
Proof. apply Forall_forall. intros c H. unfold pcomps in H. apply filter_In in H as (H & _). pose proof (split_no_slash s) as F. rewrite Forall_forall in F. auto. Qed.
Lemma removelast_incl {A} (l : list A) (P : A -> Prop) : Forall P l -> Forall P (removelast l).
Proof. induction 1 as [|x l Hx Hl IH]; [constructor|]. cbn [removelast]. destruct l; [constructor|]. constructor; auto. Qed.
Lemma hwalk_forall h (P : str -> Prop) (cs : list str) : Forall (fun c => c = dotdot \/ P c) cs -> forall cur p, Forall P cur -> hwalk h cur cs = Ok p -> Forall P p.
Proof.
  induction 1 as [|c cs Hc Hcs IH]; intros cur p Hcur H; cbn [hwalk] in H; [injection H as <-; exact Hcur|]. destruct (is_dotdot c) eqn:Ec.
  - apply IH in H; auto. apply removelast_incl. exact Hcur.
  - match type of H with context [match ?x with _ => _ end] => destruct x as [[|b]|]; try discriminate end. apply IH in H; auto. apply Forall_app. split; auto.
    destruct Hc as [->|Hc]; [discriminate|auto].
Qed.
Lemma canonicalize_forall h (P : str -> Prop) cwd s p : Forall P cwd -> Forall (fun c => c = dotdot \/ P c) (pcomps s) -> canonicalize h cwd s = Ok p -> Forall P p.
Proof.
  intros Hcwd Hs. unfold canonicalize. destruct (has_nul (pcomps s)); [discriminate|]. destruct s as [|c0 s0]; [discriminate|]. set (s := c0 :: s0) in *.
  assert (Hst : Forall P (hstart cwd s)) by (unfold hstart; destruct (is_absolute s); auto).
  unfold hlocate. destruct (split_last_case (pcomps s)) as [(E & ->)|(i & c & E & ->)]; cbn [bind]; [intros H; injection H as <-; exact Hst|].
  rewrite E in Hs. apply Forall_app in Hs as (Hi & Hc). destruct (hwalk h (hstart cwd s) i) as [d|e|e|] eqn:Ew; try discriminate. cbn [bind].
  pose proof (hwalk_forall h P i Hi _ _ Hst Ew) as Hd. destruct (is_dotdot c) eqn:Edd; cbn [bind]; [intros H; injection H as <-; apply removelast_incl; exact Hd|].
  assert (Hc' : P c) by (destruct (Forall_inv Hc) as [->|Hc']; [discriminate|exact Hc']).
  destruct (h (d ++ [c])) as [[|b]|]; try discriminate; [|destruct (dirlike s); try discriminate]; intros H; injection H as <-; apply Forall_app; auto.
Qed.
Lemma pcomps_dotted n ext : ~ In 47 n -> ~ In 47 ext -> (1 < length ext)%nat -> pcomps (n ++ [DOT] ++ ext) = [n ++ [DOT] ++ ext].
Proof.
  intros Hn He Hl. unfold pcomps. rewrite split_plain.
  - cbn [filter]. rewrite is_dot_false; [destruct n; reflexivity|]. intros E. apply (f_equal (@length N)) in E. rewrite !app_length in E. cbn [length] in E. lia.
  - intros H. apply in_app_or in H as [H|H]; [auto|]. cbn [app] in H. destruct H as [H|H]; [discriminate|auto].
Qed.
Lemma stem_no_slash n : ~ In 47 n -> ~ In 47 (file_stem n).
Proof.
  intros H. unfold file_stem. pose proof (drop_ext_spec n) as D. destruct (drop_ext n) as [[|c t]|]; auto. destruct D as (e & -> & _). intros Hi. apply H, in_or_app. auto.
Qed.
Lemma with_extension_no_dotdot n ext d : ~ In 47 n -> ~ In 47 ext -> (1 < length ext)%nat -> no_dotdot (with_extension n ext d).
Proof.
  intros Hn He Hl. unfold no_dotdot. assert (K : forall m, ~ In 47 m -> ~ In dotdot (pcomps (m ++ [DOT] ++ ext))).
  { intros m Hm. rewrite pcomps_dotted by auto. intros [H|[]]. apply (f_equal (@length N)) in H. rewrite !app_length in H. cbn [length] in H. lia. }
  unfold with_extension, name_with_ext. destruct d; apply K; auto. apply stem_no_slash; auto.
Qed.
Lemma default_no_dotdot h cwd p d i : Forall (fun c => ~ In 47 c) p -> default_image_path h cwd p d = Ok i -> no_dotdot i.
Proof.
  intros Hp. unfold default_image_path. destruct (split_last_case p) as [(-> & ->)|(j & n & -> & ->)]; [discriminate|]. apply Forall_app in Hp as (_ & Hn). inversion Hn as [|? ? Hn' _]; subst.
  destruct (is_dotdot n); [discriminate|]. cbn [ok_or bind].
  assert (K : forall b, no_dotdot (with_extension n [105; 115; 111] b) /\ no_dotdot (with_extension n [120; 105; 115; 111; 46; 105; 115; 111] b)).
  { intros b. split; (apply with_extension_no_dotdot; [exact Hn'| |cbn; lia]); cbn; intuition discriminate. }
  destruct (K d) as (K1 & K2). destruct (exists_at _ _ _); [|intros H; injection H as <-; exact K1].
  destruct (absolute_path _ _ _) as [q| | |]; try discriminate. cbn [bind]. destruct (hpath_eqb q _); intros H; injection H as <-; auto.
Qed.
Lemma c72_dir cwd pk source image w p : Forall (fun c => ~ In 47 c) cwd -> match image with Some i => no_dotdot i | None => True end ->
  canonicalize (w_fs w) cwd source = Ok p -> untouched p (w_fs w) (w_fs (fst (cmd_pack cwd pk source image w))).
Proof.
  intros Hcwd Hi Hc q Hq. destruct (cmd_pack cwd pk source image w) as [w' r] eqn:E. cbn [fst]. apply cmd_pack_step in E as [(-> & _)|(p' & n & i & H1 & _ & H2 & H)]; [reflexivity|].
  assert (p' = p) as -> by congruence. apply pack_step in H as [(-> & _)|(o & F1 & F2 & F3 & -> & _ & F4)]; [reflexivity|].
  assert (Hd : no_dotdot i).
  { destruct image; [subst i; exact Hi|]. apply (default_no_dotdot _ _ _ _ _ (canonicalize_forall _ _ _ _ _ Hcwd (Forall_impl _ (fun c H => or_intror H) (pcomps_no_slash _)) Hc) H2). }
  destruct (F4 Hd) as (_ & F5). apply packed_neq. intros ->. auto.
Qed.

Lemma canonical_names h cwd s p : Forall unix_name cwd -> canonicalize h cwd s = Ok p -> Forall unix_name p.
Proof.
  intros Hcwd H. assert (Hn : has_nul (pcomps s) = false) by (unfold canonicalize in H; destruct (has_nul (pcomps s)); [discriminate|reflexivity]).
  apply (canonicalize_forall h _ cwd s p Hcwd); [|exact H]. apply Forall_forall. intros c Hc. destruct (str_dec c dotdot) as [->|Hd]; [left; reflexivity|right].
  pose proof (pcomps_no_slash s) as Hs. rewrite Forall_forall in Hs. specialize (Hs c Hc).
  assert (Hz : ~ In 0 c).
  { intros Hi. assert (has_nul (pcomps s) = true); [|congruence]. unfold has_nul. apply existsb_exists. exists c. split; auto. apply existsb_exists. exists 0. auto. }
  unfold pcomps in Hc. apply filter_In in Hc as (_ & Hc). unfold unix_name. ssplit; auto; intros ->; discriminate.
Qed.
Lemma pstr_slashed p : p <> [] -> pstr p = slashed p.
Proof. destruct p; [congruence|reflexivity]. Qed.
Lemma pstr_place cwd p : Forall unix_name p -> p <> [] -> place cwd (pstr p) = p /\ no_dotdot (pstr p).
Proof.
  intros Hp Hn. rewrite pstr_slashed by auto. unfold place, no_dotdot. rewrite pcomps_slashed by auto. split; [|apply names_dotdot; auto].
  destruct p as [|n p]; [congruence|]. rewrite slashed_cons. reflexivity.
Qed.
Lemma new_ext_unix ext n n' : ~ In 47 ext -> ~ In 0 ext -> (1 < length ext)%nat -> unix_name n -> new_ext ext n n' -> unix_name n'.
Proof.
  intros He1 He2 Hl (H1 & H2 & H3 & H4 & H5) H.
  assert (K : forall a, (forall x, In x a -> In x n) -> unix_name (a ++ 46 :: ext)).
  { intros a Ha. unfold unix_name. ssplit.
    - destruct a; discriminate.
    - intros E. apply (f_equal (@length N)) in E. rewrite app_length in E. cbn in E. lia.
    - intros E. apply (f_equal (@length N)) in E. rewrite app_length in E. cbn in E. lia.
    - intros Hi. apply in_app_or in Hi as [Hi|[Hi|Hi]]; [auto|discriminate|auto].
    - intros Hi. apply in_app_or in Hi as [Hi|[Hi|Hi]]; [auto|discriminate|auto]. }
  destruct H as [(a & e & -> & _ & _ & ->)|(_ & ->)]; apply K; auto. intros x Hx. apply in_or_app. auto.
Qed.

(** ** C51: rewriting *)
Definition moved (h : host) (p q : list str) (b : list byte) : host := if hpath_eqb p q then h else hset (hunset h p) q (HFile b).
Lemma moved_q h p q b : h p = Some (HFile b) -> moved h p q b q = Some (HFile b).
Proof. intros H. unfold moved. destruct (hpath_eqb_spec p q) as [<-|Hn]; [exact H|apply hset_eq]. Qed.
Lemma moved_other h p q b z : z <> p -> z <> q -> moved h p q b z = h z.
Proof.
  intros H1 H2. unfold moved. destruct (hpath_eqb p q); [reflexivity|]. rewrite hset_neq by auto. unfold hunset. destruct (hpath_eqb_spec z p); [congruence|reflexivity].
Qed.
Lemma moved_dirs h p q b z : h p = Some (HFile b) -> h q <> Some HDir -> h z = Some HDir -> moved h p q b z = Some HDir.
Proof. intros Hp Hq Hz. rewrite moved_other; congruence. Qed.

Lemma repack_one_case cwd pk directory delete x w w' r p b : repack_one cwd pk directory delete x w = (w', r) ->
  canonicalize (w_fs w) cwd x = Ok p -> w_fs w p = Some (HFile b) ->
  let q := change_last (fun n => name_with_ext n OLD) p in
  let h1 := moved (w_fs w) p q b in
  (w_fs w' = w_fs w /\ r <> Ok tt)
  \/ (w_fs w q <> Some HDir
     /\ ((w_fs w' = h1 /\ r <> Ok tt)
         \/ exists o, o <> q /\ h1 o <> Some HDir /\ ((directory = None -> Forall unix_name p -> p <> [] -> o = p)
               /\ forall d dd i n, directory = Some d -> canonicalize (w_fs w) cwd d = Ok dd -> w_fs w dd = Some HDir -> p = i ++ [n] -> Forall unix_name p -> Forall unix_name dd ->
                  o = removelast dd ++ [n])
            /\ let h2 := packed_to pk h1 q o in let r0 := snd (pk (hset h1 o (HFile [])) q) in
               (w_fs w' = h2 /\ (r = r0 \/ r <> Ok tt)) \/ (delete = true /\ r0 = Ok tt /\ w_fs w' = hunset h2 q))).
Proof.
  intros H Hc Hb. cbv zeta. unfold repack_one in H. unfold hbind at 1, hres at 1, existing in H. rewrite Hc in H. cbn [bind] in H. rewrite Hb in H. cbn [ok_or bind is_hdir] in H.
  set (q := change_last (fun n => name_with_ext n OLD) p) in *. cbv zeta in H. unfold hbind at 1 in H. unfold rename_file in H. rewrite Hb in H.
  assert (Q : w_fs w q = Some HDir \/ w_fs w q <> Some HDir) by (destruct (w_fs w q) as [[|]|]; [left; reflexivity|right; discriminate|right; discriminate]).
  destruct Q as [Q|Q]; [rewrite Q in H; injection H as <- <-; left; split; [reflexivity|discriminate]|].
  set (X := if spend w 1 <? 1 then (w, Err HFault) else (after w (if hpath_eqb p q then w_fs w else hset (hunset (w_fs w) p) q (HFile b)) 1, Ok tt)) in H.
  assert (H' : match X with (w, Ok a) => (fun _ => hbind (hres (fun w => match directory with
                        | Some d => let* p0 := absolute_path (w_fs w) cwd d in
                                    let* n := unwrap (match split_last p with Some (_, n) => if is_dotdot n then None else Some n | None => None end) in
                                    Ok (with_file_name p0 n)
                        | None => Ok p
                        end)) (fun dest =>
  hbind (cmd_pack_path cwd pk q (pstr dest)) (fun _ =>
  if delete then remove_file q else hret tt))) a w | (w, Err e) => (w, Err e) | (w, Panic p) => (w, Panic p) | (w, OutOfFuel) => (w, OutOfFuel) end = (w', r)).
  { destruct (w_fs w q) as [[|]|]; [congruence|exact H|exact H]. }
  clear H. rename H' into H. unfold X in H. clear X. destruct (spend w 1 <? 1); [injection H as <- <-; left; split; [reflexivity|discriminate]|].
  set (w1 := after w (if hpath_eqb p q then w_fs w else hset (hunset (w_fs w) p) q (HFile b)) 1) in *.
  assert (E1 : w_fs w1 = moved (w_fs w) p q b) by reflexivity.
  right. split; [exact Q|]. rewrite <- E1. unfold hbind at 1, hres at 1 in H.
  match type of H with match ?x with _ => _ end = _ => destruct x as [dest|e|e|] eqn:Ed end; try (injection H as <- <-; left; split; [reflexivity|discriminate]).
  unfold hbind at 1 in H. destruct (cmd_pack_path cwd pk q (pstr dest) w1) as [w2 r2] eqn:E2.
  assert (E2' := E2). apply pack_step in E2 as [(F1 & F2)|(o & F1 & F2 & F3 & F4 & F5 & F6)].
  - left. destruct r2 as [[]|e|e|]; [congruence| | |]; injection H as <- <-; (split; [exact F1|discriminate]).
  - right. exists o. ssplit; auto.
    + intros -> Hu Hp. injection Ed as <-. destruct (pstr_place cwd p Hu Hp) as (G1 & G2). destruct (F6 G2) as (G3 & _). congruence.
    + intros d dd i n -> Hd Hdd -> Hu Hud. apply Forall_app in Hu as (_ & Hn). apply Forall_inv in Hn.
      assert (Hc' : canonicalize (w_fs w1) cwd d = Ok dd).
      { eapply canonicalize_more; [|exact Hd|intros b' Hb'; congruence]. intros z Hz. rewrite E1. apply moved_dirs; auto. }
      unfold absolute_path in Ed. rewrite Hc' in Ed. rewrite split_last_snoc in Ed. cbn [bind] in Ed.
      rewrite is_dotdot_false in Ed by (intros ->; destruct Hn as (_ & _ & Hn & _); congruence). cbn [unwrap bind] in Ed. injection Ed as <-.
      assert (Hw : with_file_name dd n = removelast dd ++ [n]).
      { unfold with_file_name. destruct (split_last_case dd) as [(-> & ->)|(j & c & -> & ->)]; [reflexivity|]. apply Forall_app in Hud as (_ & Hc0). apply Forall_inv in Hc0.
        rewrite is_dotdot_false by (intros ->; destruct Hc0 as (_ & _ & Hc0 & _); congruence). rewrite removelast_last. reflexivity. }
      rewrite Hw in F6. destruct (pstr_place cwd (removelast dd ++ [n])) as (G1 & G2).
      * apply Forall_app. split; [destruct (split_last_case dd) as [(-> & _)|(j & c & -> & _)]; [constructor|rewrite removelast_last; apply Forall_app in Hud; tauto]|constructor; [exact Hn|constructor]].
      * destruct (removelast dd); discriminate.
      * destruct (F6 G2) as (G3 & _). congruence.
    + destruct r2 as [[]|e|e|]; try (injection H as <- <-; left; split; [exact F4|left; exact F5]). destruct delete; [|injection H as <- <-; left; split; [exact F4|left; exact F5]].
      unfold remove_file in H. rewrite F4 in H. rewrite packed_neq in H by auto. rewrite E1 in H. rewrite (moved_q _ _ _ _ Hb) in H. rewrite E1.
      destruct (spend w2 1 <? 1); injection H as <- <-; [left; split; [rewrite F4, E1; reflexivity|right; discriminate]|].
      right. rewrite E1 in F5. ssplit; auto.
Qed.
Lemma change_last_moved p q : Forall unix_name p -> moved_to p q -> change_last (fun n => name_with_ext n OLD) p = q.
Proof.
  intros Hu (i & n & n' & -> & -> & Hn). unfold change_last. rewrite split_last_snoc. apply Forall_app in Hu as (_ & Hu). apply Forall_inv in Hu.
  rewrite is_dotdot_false by (intros ->; destruct Hu as (_ & _ & Hu & _); congruence). f_equal. f_equal. apply (new_ext_fun [111; 108; 100] n); auto. apply name_with_ext_ok.
Qed.
Lemma kept_step cwd pk directory delete x w w' r p q b : Forall unix_name cwd -> repack_one cwd pk directory delete x w = (w', r) ->
  canonicalize (w_fs w) cwd x = Ok p -> w_fs w p = Some (HFile b) -> moved_to p q ->
  kept pk delete p q b (w_fs w')
  /\ (directory = None -> (forall z, z <> p -> z <> q -> w_fs w' z = w_fs w z) /\ (forall z, w_fs w z = Some HDir -> w_fs w' z = Some HDir)).
Proof.
  intros Hcwd H Hc Hb Hm. pose proof (canonical_names _ _ _ _ Hcwd Hc) as Hu. pose proof (repack_one_case _ _ _ _ _ _ _ _ _ _ H Hc Hb) as K. cbv zeta in K.
  rewrite (change_last_moved p q Hu Hm) in K. unfold kept.
  assert (Hne : p <> []) by (destruct Hm as (i & n & n' & -> & _); destruct i; discriminate).
  destruct K as [(-> & _)|(Hq & [(-> & _)|(o & O1 & O2 & O3 & [(-> & _)|(-> & Hr & ->)])])].
  - split; auto.
  - split; [right; left; apply moved_q; exact Hb|]. intros _. split; [intros z H1 H2; apply moved_other; auto|intros z Hz; apply moved_dirs; auto].
  - split; [right; left; rewrite packed_neq by auto; apply moved_q; exact Hb|]. intros Hd. pose proof (proj1 O3 Hd Hu Hne) as ->. split.
    + intros z H1 H2. rewrite packed_neq by auto. apply moved_other; auto.
    + intros z Hz. rewrite packed_neq by congruence. apply moved_dirs; auto.
  - split.
    + right. right. split; auto. exists (hset (moved (w_fs w) p q b) o (HFile [])). split; auto. rewrite hset_neq by auto. apply moved_q. exact Hb.
    + intros Hd. pose proof (proj1 O3 Hd Hu Hne) as ->. assert (N : forall z, z <> q -> hunset (packed_to pk (moved (w_fs w) p q b) q p) q z = packed_to pk (moved (w_fs w) p q b) q p z).
      { intros z Hz. unfold hunset. destruct (hpath_eqb_spec z q); [congruence|reflexivity]. }
      split.
      * intros z H1 H2. rewrite N by auto. rewrite packed_neq by auto. apply moved_other; auto.
      * intros z Hz. rewrite N by congruence. rewrite packed_neq by congruence. apply moved_dirs; auto.
Qed.
(** C71: where the new image goes. *)
Lemma c71_lemma cwd pk d delete x w w' p q b dd i n : Forall unix_name cwd -> canonicalize (w_fs w) cwd x = Ok p -> w_fs w p = Some (HFile b) ->
  p = i ++ [n] -> moved_to p q -> canonicalize (w_fs w) cwd d = Ok dd -> w_fs w dd = Some HDir ->
  exiso_repack cwd pk (Some d) delete [x] w = (w', Ok tt) ->
  let o := removelast dd ++ [n] in
  (exists h out, h q = Some (HFile b) /\ pk h q = (out, Ok tt) /\ w_fs w' o = Some (HFile out))
  /\ forall z, z <> o -> z <> p -> z <> q -> w_fs w' z = w_fs w z.
Proof.
  intros Hcwd Hc Hb Hp Hm Hd Hdd H o. cbn [exiso_repack] in H. unfold hbind at 1 in H. destruct (repack_one cwd pk (Some d) delete x w) as [w1 r] eqn:E.
  assert (r = Ok tt /\ w1 = w') as (-> & <-) by (destruct r as [[]| | |]; try discriminate H; injection H as ->; auto). clear H.
  pose proof (canonical_names _ _ _ _ Hcwd Hc) as Hu. pose proof (canonical_names _ _ _ _ Hcwd Hd) as Hud.
  pose proof (repack_one_case _ _ _ _ _ _ _ _ _ _ E Hc Hb) as K. cbv zeta in K. rewrite (change_last_moved p q Hu Hm) in K.
  destruct K as [(_ & K)|(Hq & [(_ & K)|(o' & O1 & O2 & (_ & O3) & O4)])]; try congruence.
  pose proof (O3 d dd i n eq_refl Hd Hdd Hp Hu Hud) as ->. fold o in O1, O2, O4.
  set (h1 := moved (w_fs w) p q b) in *. set (h0 := hset h1 o (HFile [])) in *.
  assert (Hh0 : h0 q = Some (HFile b)) by (unfold h0; rewrite hset_neq by auto; apply moved_q; exact Hb).
  assert (Hout : snd (pk h0 q) = Ok tt /\ (forall z, z <> q -> w_fs w1 z = packed_to pk h1 q o z)).
  { destruct O4 as [(-> & [Hr|Hr])|(_ & Hr & ->)]; [|congruence|].
    - split; [symmetry; exact Hr|reflexivity].
    - split; [exact Hr|]. intros z Hz. unfold hunset. destruct (hpath_eqb_spec z q); [congruence|reflexivity]. }
  destruct Hout as (Hr & Hz). split.
  - exists h0, (fst (pk h0 q)). split; [exact Hh0|]. split; [destruct (pk h0 q); cbn in *; congruence|]. rewrite Hz by auto. apply packed_eq.
  - intros z Z1 Z2 Z3. rewrite Hz, packed_neq by auto. apply moved_other; auto.
Qed.

Lemma c51_one cwd pk directory delete x w p q b : Forall unix_name cwd -> canonicalize (w_fs w) cwd x = Ok p -> w_fs w p = Some (HFile b) -> moved_to p q ->
  kept pk delete p q b (w_fs (fst (exiso_repack cwd pk directory delete [x] w))).
Proof.
  intros Hcwd Hc Hb Hm. cbn [exiso_repack]. unfold hbind. destruct (repack_one cwd pk directory delete x w) as [w' r] eqn:E.
  destruct (kept_step _ _ _ _ _ _ _ _ _ _ _ Hcwd E Hc Hb Hm) as (K & _). destruct r as [[]|e|e|]; cbn [fst hret]; exact K.
Qed.

Lemma c51_many cwd pk delete (es : list (str * list str * list str * list byte)) : Forall unix_name cwd -> forall w,
  Forall (fun '(x, p, q, b) => canonicalize (w_fs w) cwd x = Ok p /\ w_fs w p = Some (HFile b) /\ moved_to p q) es ->
  NoDup (map (fun '(x, p, q, b) => p) es ++ map (fun '(x, p, q, b) => q) es) ->
  Forall (fun '(x, p, q, b) => kept pk delete p q b (w_fs (fst (exiso_repack cwd pk None delete (map (fun '(x, p, q, b) => x) es) w)))) es
  /\ (forall z, ~ In z (map (fun '(x, p, q, b) => p) es ++ map (fun '(x, p, q, b) => q) es) ->
      w_fs (fst (exiso_repack cwd pk None delete (map (fun '(x, p, q, b) => x) es) w)) z = w_fs w z).
Proof.
  intros Hcwd. induction es as [|[[[x p] q] b] es IH]; intros w HF HN; [split; [constructor|reflexivity]|].
  cbn [map] in *. pose proof (Forall_inv HF) as (Hc & Hb & Hm). apply Forall_inv_tail in HF.
  set (ps := map (fun '(x, p, q, b) => p) es) in *. set (qs := map (fun '(x, p, q, b) => q) es) in *.
  assert (HN' : NoDup (ps ++ qs) /\ ~ In p (ps ++ qs) /\ ~ In q (ps ++ qs)).
  { cbn [app] in HN. inversion HN as [|? ? Hp HN1]; subst. apply NoDup_remove in HN1 as (HN1 & Hq). ssplit; auto.
    intros Hi. apply Hp. apply in_or_app. apply in_app_or in Hi as [Hi|Hi]; auto. right. right. exact Hi. }
  destruct HN' as (HN1 & Hp & Hq). cbn [exiso_repack]. unfold hbind. destruct (repack_one cwd pk None delete x w) as [w1 r] eqn:E.
  destruct (kept_step _ _ _ _ _ _ _ _ _ _ _ Hcwd E Hc Hb Hm) as (K & K'). destruct (K' eq_refl) as (K1 & K2).
  assert (HF1 : Forall (fun '(x, p, q, b) => canonicalize (w_fs w1) cwd x = Ok p /\ w_fs w1 p = Some (HFile b) /\ moved_to p q) es).
  { rewrite Forall_forall in *. intros [[[x' p'] q'] b'] Hi. specialize (HF _ Hi) as (H1 & H2 & H3).
    assert (Hi' : In p' ps) by (apply in_map_iff; exists (x', p', q', b'); auto).
    assert (H2' : w_fs w1 p' = Some (HFile b')) by (rewrite K1; auto; intros ->; [apply Hp|apply Hq]; apply in_or_app; auto).
    ssplit; auto. apply (canonicalize_more (w_fs w)); auto. intros b'' _. eauto. }
  assert (G : forall w2, (forall z, ~ In z (ps ++ qs) -> w_fs w2 z = w_fs w1 z) ->
     kept pk delete p q b (w_fs w2) /\ (forall z, ~ In z (p :: ps ++ q :: qs) -> w_fs w2 z = w_fs w z)).
  { intros w2 HZ. split.
    - unfold kept. rewrite (HZ p Hp), (HZ q Hq). exact K.
    - intros z Hz. rewrite HZ; [apply K1; intros ->; apply Hz; [left; reflexivity|right; apply in_or_app; right; left; reflexivity]|].
      intros Hi. apply Hz. right. apply in_or_app. apply in_app_or in Hi as [Hi|Hi]; auto. right. right. exact Hi. }
  assert (L : r <> Ok tt -> Forall (fun '(x, p, q, b) => kept pk delete p q b (w_fs w1)) es).
  { intros _. rewrite Forall_forall in *. intros [[[x' p'] q'] b'] Hi. destruct (HF1 _ Hi) as (_ & H2 & _). left. exact H2. }
  destruct r as [[]|e|e|].
  - specialize (IH w1 HF1 HN1) as (I1 & I2). destruct (G _ I2) as (G1 & G2). split; [constructor; [exact G1|exact I1]|exact G2].
  - destruct (G w1 ltac:(auto)) as (G1 & G2). split; [constructor; [exact G1|apply L; discriminate]|exact G2].
  - destruct (G w1 ltac:(auto)) as (G1 & G2). split; [constructor; [exact G1|apply L; discriminate]|exact G2].
  - destruct (G w1 ltac:(auto)) as (G1 & G2). split; [constructor; [exact G1|apply L; discriminate]|exact G2].
Qed.

(** ** C50: several sources *)
Lemma create_args_dirs gs : Forall (fun g => snd g = None) gs -> create_args (create_line gs) = Ok gs.
Proof.
  induction 1 as [|[d f] gs Hg Hgs IH]; [reflexivity|]. cbn [snd] in Hg. subst f. unfold create_line in *. cbn [map concat fst snd app create_args].
  change (str_eqb ([45; 99] : str) DASH_C) with true. cbn [negb]. rewrite IH. cbn [bind]. destruct gs as [|[d' f'] gs]; reflexivity.
Qed.
Lemma create_args_sound rest : forall tasks, create_args rest = Ok tasks -> rest = create_line tasks /\ Forall (fun g => snd g = None) tasks.
Proof.
  assert (K : forall n rest, (length rest <= n)%nat -> forall tasks, create_args rest = Ok tasks -> rest = create_line tasks /\ Forall (fun g => snd g = None) tasks).
  { induction n as [|n IH]; intros [|c [|dir l]] Hl tasks H; cbn [length] in Hl; try lia; cbn [create_args] in H.
    - injection H as <-. split; [reflexivity|constructor].
    - injection H as <-. split; [reflexivity|constructor].
    - destruct (negb (str_eqb c DASH_C)); discriminate.
    - destruct (str_eqb c DASH_C) eqn:Ec; [|discriminate]. cbn [negb] in H. apply str_eqb_spec in Ec. subst c.
      destruct (create_args l) as [ts|e|e|] eqn:El; try discriminate. cbn [bind] in H. destruct (IH l ltac:(lia) ts El) as (E & F). injection H as <-.
      assert (G : (match l with f :: _ => if str_eqb f DASH_C then (dir, None) else (dir, Some f) | [] => (dir, None) end) = (dir, None : option str)).
      { destruct ts as [|[d' f'] ts]; [rewrite E; reflexivity|]. rewrite E. unfold create_line. cbn [map concat app]. reflexivity. }
      rewrite G. split; [|constructor; auto]. unfold create_line in *. cbn [map concat fst snd app]. rewrite <- E. reflexivity. }
  intros tasks. apply (K (length rest)). lia.
Qed.
Lemma create_args_files gs : Forall (fun g => snd g <> Some [45; 99]) gs -> Exists (fun g => snd g <> None) gs -> create_args (create_line gs) = Err HRefused.
Proof.
  intros HF HE. induction HE as [[d f] gs Hg|[d f] gs HE IH]; cbn [snd] in *.
  - destruct f as [f|]; [|congruence]. unfold create_line. cbn [map concat fst snd app create_args]. change (str_eqb ([45; 99] : str) DASH_C) with true. cbn [negb].
    destruct (str_eqb f DASH_C) eqn:Ef; [|reflexivity]. apply str_eqb_spec in Ef. subst f. apply Forall_inv in HF. destruct HF. reflexivity.
  - destruct f as [f|].
    + unfold create_line. cbn [map concat fst snd app create_args]. change (str_eqb ([45; 99] : str) DASH_C) with true. cbn [negb].
      destruct (str_eqb f DASH_C) eqn:Ef; [|reflexivity]. apply str_eqb_spec in Ef. subst f. apply Forall_inv in HF. destruct HF. reflexivity.
    + apply Forall_inv_tail in HF. specialize (IH HF). unfold create_line in *. cbn [map concat fst snd app create_args]. change (str_eqb ([45; 99] : str) DASH_C) with true. cbn [negb].
      rewrite IH. reflexivity.
Qed.

Lemma goes_to_target cwd d file o : Forall unix_name d -> goes_to cwd d file o -> no_dotdot (create_target d file) /\ place cwd (create_target d file) = o.
Proof.
  intros Hd. unfold goes_to, create_target. destruct file as [f|]; [intros (H & ->); auto|]. intros (i & n & n' & -> & Hn & ->).
  apply Forall_app in Hd as (Hi & Hd). apply Forall_inv in Hd. unfold change_last. rewrite split_last_snoc.
  rewrite is_dotdot_false by (intros ->; destruct Hd as (_ & _ & Hd & _); congruence).
  rewrite (new_ext_fun _ _ _ _ (name_with_ext_ok [105; 115; 111] n) Hn).
  assert (Hu : unix_name n') by (apply (new_ext_unix [105; 115; 111] n); auto; try (cbn; intuition discriminate); cbn; lia).
  destruct (pstr_place cwd (i ++ [n'])) as (H1 & H2); auto; [apply Forall_app; auto|destruct i; discriminate].
Qed.
Lemma c50_all cwd pk (es : list (str * option str * list str * list str)) : Forall unix_name cwd -> forall w w',
  create_all cwd pk (map (fun '(dir, file, d, o) => (dir, file)) es) w = (w', Ok tt) ->
  Forall (fun '(dir, file, d, o) => canonicalize (w_fs w) cwd dir = Ok d /\ goes_to cwd d file o) es ->
  NoDup (map (fun '(dir, file, d, o) => o) es) ->
  Forall (fun '(dir, file, d, o) => w_fs w d = Some HDir /\ exists h, (forall z, h z = w_fs w z \/ In z (map (fun '(dir, file, d, o) => o) es))
      /\ snd (pk h d) = Ok tt /\ w_fs w' o = Some (HFile (fst (pk h d)))) es
  /\ forall z, ~ In z (map (fun '(dir, file, d, o) => o) es) -> w_fs w' z = w_fs w z.
Proof.
  intros Hcwd. induction es as [|[[[dir file] d] o] es IH]; intros w w' H HF HN; cbn [map create_all] in *.
  - unfold hret in H. injection H as <-. split; [constructor|auto].
  - pose proof (Forall_inv HF) as (Hc & Hg). apply Forall_inv_tail in HF. inversion HN as [|? ? Ho HN1]; subst. set (os := map (fun '(dir, file, d, o) => o) es) in *.
    unfold hbind in H. destruct (exiso_create_single cwd pk dir file w) as [w1 r1] eqn:E1. destruct r1 as [[]|e|e|]; try discriminate.
    unfold exiso_create_single, hbind, hres, existing in E1. rewrite Hc in E1. cbn [bind] in E1. unfold ok_or in E1. destruct (w_fs w d) as [n|] eqn:En; [|discriminate]. cbn [bind] in E1.
    destruct (is_hdir n) eqn:Ed; [|discriminate]. assert (n = HDir) as -> by (destruct n; [reflexivity|discriminate]). clear Ed.
    pose proof (canonical_names _ _ _ _ Hcwd Hc) as Hu. destruct (goes_to_target cwd d file o Hu Hg) as (G1 & G2).
    apply pack_step in E1 as [(_ & E1)|(o' & F1 & F2 & F3 & F4 & F5 & F6)]; [congruence|]. destruct (F6 G1) as (F7 & F8). assert (o' = o) as -> by congruence.
    assert (Z1 : forall z, z <> o -> w_fs w1 z = w_fs w z) by (intros z Hz; rewrite F4; apply packed_neq; auto).
    assert (D1 : forall z, w_fs w z = Some HDir -> w_fs w1 z = Some HDir) by (intros z Hz; rewrite Z1; congruence).
    assert (HF1 : Forall (fun '(dir, file, d, o) => canonicalize (w_fs w1) cwd dir = Ok d /\ goes_to cwd d file o) es).
    { rewrite Forall_forall in *. intros [[[dir' file'] d'] o'] Hi. destruct (HF _ Hi) as (H1 & H2). split; auto. apply (canonicalize_more (w_fs w)); auto.
      intros b Hb. destruct (hpath_eqb_spec d' o) as [->|Hn]; [rewrite F4, packed_eq; eauto|exists b; rewrite Z1; auto]. }
    specialize (IH w1 w' H HF1 HN1) as (I1 & I2). split.
    + constructor.
      * split; auto. exists (hset (w_fs w) o (HFile [])). ssplit.
        -- intros z. destruct (hpath_eqb_spec z o) as [->|Hz]; [right; left; reflexivity|left; apply hset_neq; auto].
        -- auto.
        -- rewrite I2 by exact Ho. rewrite F4. apply packed_eq.
      * rewrite Forall_forall in *. intros [[[dir' file'] d'] o'] Hi. destruct (I1 _ Hi) as (H1 & h & H2 & H3). split.
        -- destruct (hpath_eqb_spec d' o) as [->|Hz]; [rewrite F4, packed_eq in H1; discriminate|rewrite <- Z1; auto].
        -- exists h. split; [|exact H3]. intros z. destruct (H2 z) as [->|Hz]; [|right; right; exact Hz].
           destruct (hpath_eqb_spec z o) as [->|Hz]; [right; left; reflexivity|left; apply Z1; auto].
    + intros z Hz. rewrite I2, Z1; auto; intros Hi; apply Hz; [left; auto|right; exact Hi].
Qed.
Lemma c50_lemma cwd pk dir file gs (es : list (str * option str * list str * list str)) w w' : Forall unix_name cwd -> Forall (fun g => snd g = None) gs ->
  exiso_create cwd pk dir file (create_line gs) w = (w', Ok tt) ->
  map (fun '(dir, file, d, o) => (dir, file)) es = (dir, file) :: gs ->
  Forall (fun '(dir, file, d, o) => canonicalize (w_fs w) cwd dir = Ok d /\ goes_to cwd d file o) es ->
  NoDup (map (fun '(dir, file, d, o) => o) es) ->
  Forall (fun '(dir, file, d, o) => w_fs w d = Some HDir /\ exists h, (forall z, h z = w_fs w z \/ In z (map (fun '(dir, file, d, o) => o) es))
      /\ snd (pk h d) = Ok tt /\ w_fs w' o = Some (HFile (fst (pk h d)))) es.
Proof.
  intros Hcwd Hgs H Hes HF HN. unfold exiso_create, hbind, hres in H. rewrite create_args_dirs in H by exact Hgs. rewrite <- Hes in H. apply (c50_all cwd pk es Hcwd w w' H HF HN).
Qed.

(** ** C73: rewriting a packed image *)
Lemma scans_ext d d' t : (forall o n, d o n = d' o n) -> forall r, scans d t r -> scans d' t r.
Proof.
  intros E. induction t as [b|cs IH] using ftree_rect'; intros r H; inversion H as [? ? H1 H2|? ? es H1 H2]; subst.
  - constructor; auto. intros i n Hi Hn. rewrite <- E. apply H2; auto.
  - apply (scans_dir _ cs r es).
    + destruct H1 as (k & Hk). exists k. intros fuel Hf. rewrite <- (scan_all_ext d d' E). auto.
    + clear H1 H. induction H2 as [|c e cs es (A & B & C) HF IH2]; constructor.
      * ssplit; auto. apply Forall_inv in IH. auto.
      * apply IH2. apply Forall_inv_tail in IH. exact IH.
Qed.
Lemma image_packer_run m m' t img h q : source t -> latin_tree t -> packs m t img -> h q = Some (HFile img) ->
  exists t' img' o, same_tree t t' /\ returns (fun fuel => image_packer fuel m' h q) (img', o)
   /\ (o = Ok tt /\ packs m' t' img' /\ readable (file_dev img') t
       \/ o = Err HPack /\ exists p cs s, at_path t' p (FDir cs) /\ table_size m' cs s /\ 262144 < s).
Proof.
  intros HS HL Hp Hq. destruct (c38_padded m t img HS Hp) as (v & t' & Hv & Hsame & _ & Hsc).
  assert (E : forall o n, file_dev img o n = offset_dev (file_dev img) 0 o n) by (intros; unfold offset_dev; rewrite N.add_0_r; reflexivity).
  assert (Hv' : read_volume (offset_dev (file_dev img) 0) = Ok v) by (rewrite <- (read_volume_ext _ _ E); exact Hv).
  assert (Hb : offset_wrapper_new (file_dev img) = Ok 0) by (unfold offset_wrapper_new, XDVD_OFFSETS; cbn [probe]; rewrite Hv'; reflexivity).
  pose proof (scans_ext _ _ t' E _ Hsc) as Hsc'.
  destruct (repack_lemma m' _ v t' (std_copier img 0) [] Hv' Hsc' (same_source _ _ Hsame HS) (same_latin _ _ Hsame HL) (std_exact img 0)) as (img' & evs' & o & (k & R1) & R2).
  exists t', img', (match o with Ok _ => Ok tt | Err _ => Err HPack | Panic p => Panic p | OutOfFuel => OutOfFuel end). ssplit; auto.
  - exists k. intros fuel Hf. unfold image_packer. rewrite Hq, Hb, (R1 fuel Hf). reflexivity.
  - destruct R2 as [(_ & -> & Hpk)|(_ & e & -> & Hr)].
    + left. ssplit; auto. eapply same_readable; [exact Hsame|]. eapply c14_lemma; [|exact Hpk]. eapply same_source; eauto.
    + right. split; auto. destruct (packs_final m t img HS Hp) as (pls & rs & HLd & _). assert (Hrep : representable m t) by (eapply laid_representable; eauto; apply HS).
      pose proof (same_reason m m' t t' e Hsame Hrep Hr) as ->. exact Hr.
Qed.
Lemma rewrite_run cwd pk x w p q b : Forall unix_name cwd -> w_left w = None -> rooted (w_fs w) -> canonicalize (w_fs w) cwd x = Ok p -> w_fs w p = Some (HFile b) ->
  moved_to p q -> p <> q -> w_fs w q <> Some HDir ->
  let h1 := hset (hunset (w_fs w) p) q (HFile b) in
  exiso_repack cwd pk None false [x] w
  = (mkWorld (packed_to pk h1 q p) None, snd (pk (hset h1 p (HFile [])) q)).
Proof.
  intros Hcwd HL HR Hc Hb Hm Hpq Hq h1. pose proof (canonical_names _ _ _ _ Hcwd Hc) as Hu.
  assert (Eq : change_last (fun n => name_with_ext n OLD) p = q) by (apply change_last_moved; auto).
  cbn [exiso_repack]. unfold hbind at 1. unfold repack_one. unfold hbind at 1, hres at 1, existing. rewrite Hc. cbn [bind]. rewrite Hb. cbn [ok_or bind is_hdir]. cbv zeta. rewrite Eq.
  assert (E1 : rename_file p q w = (mkWorld h1 None, Ok tt)).
  { unfold rename_file. rewrite Hb. assert (Es : spend w 1 <? 1 = false) by (unfold spend; rewrite HL; reflexivity). rewrite Es. unfold after. rewrite HL.
    destruct (hpath_eqb_spec p q); [congruence|]. destruct (w_fs w q) as [[|]|]; [congruence|reflexivity|reflexivity]. }
  unfold hbind at 1. rewrite E1. unfold hbind at 1, hres at 1. unfold hbind at 1. clear E1.
  pose proof Hm as (i & n & n' & Ep & Eq' & Hn). assert (Hnn : n <> n') by congruence.
  assert (Hui : Forall unix_name (i ++ [n])) by (rewrite <- Ep; exact Hu).
  assert (Hne : p <> []) by (rewrite Ep; destruct i; discriminate).
  destruct (pstr_place cwd p Hu Hne) as (P1 & P2).
  assert (Ec : pcomps (pstr p) = i ++ [n]) by (rewrite pstr_slashed, pcomps_slashed by auto; exact Ep).
  assert (Est : hstart cwd (pstr p) = []) by (rewrite pstr_slashed by auto; rewrite Ep; destruct i; reflexivity).
  assert (Hs : pstr p <> []) by (rewrite pstr_slashed by auto; rewrite Ep; destruct i; discriminate).
  assert (Hdl : dirlike (pstr p) = false).
  { rewrite pstr_slashed by auto. rewrite Ep. rewrite slashed_app. change (slashed [n]) with (47 :: n ++ []). rewrite app_nil_r. unfold dirlike. rewrite split_app, rev_app_distr.
    apply Forall_app in Hui as (_ & Hui). apply Forall_inv in Hui. pose proof (name_dirlike n Hui) as G. unfold dirlike in G. rewrite split_plain in * by apply Hui. cbn [rev app] in *. exact G. }
  assert (Hh1p : h1 p = None) by (unfold h1; rewrite hset_neq by auto; unfold hunset; destruct (hpath_eqb_spec p p); congruence).
  assert (HD : dirs_on h1 [] i).
  { intros pre suf E Hp. cbn [app]. assert (Hd : w_fs w pre = Some HDir).
    { apply (rooted_prefix (w_fs w) pre (suf ++ [n])); [exact HR| |destruct suf; discriminate]. rewrite app_assoc, <- E, <- Ep, Hb. discriminate. }
    unfold h1. rewrite hset_neq by congruence. unfold hunset. destruct (hpath_eqb_spec pre p); [congruence|exact Hd]. }
  pose proof (names_dotdot _ Hui) as Hdd. pose proof (names_nul _ Hui) as Hnul.
  assert (Hcn : canonicalize h1 cwd (pstr p) = Err HNotFound).
  { unfold canonicalize. rewrite Ec, Hnul, Est. destruct (pstr p); [congruence|]. rewrite hlocate_dirs by auto. cbn [bind app]. rewrite <- Ep, Hh1p. reflexivity. }
  unfold cmd_pack_path. unfold hbind at 1, hres at 1. cbn [w_fs]. unfold h1 at 1. rewrite hset_eq. cbn [ok_or].
  unfold hbind at 1, hres at 1. cbn [w_fs]. unfold exists_at. rewrite Hcn. unfold hbind at 1, hres at 1. cbn [w_fs]. unfold absolute_path. rewrite Hcn.
  unfold path_absolute. fold (place cwd (pstr p)). rewrite P1. assert (Epm : (match pstr p with [] => Err HInvalidInput | _ :: _ => Ok p end) = (Ok p : res herr (list str))) by (destruct (pstr p); [congruence|reflexivity]).
  rewrite Epm. cbn [bind]. destruct (starts_with p q) eqn:Esw.
  { exfalso. apply starts_with_spec in Esw as (c & Ecc). rewrite Ep, Eq' in Ecc. destruct c as [|a c]; [rewrite app_nil_r in Ecc; apply app_inj_tail in Ecc as (_ & Ecc); congruence|].
    apply (f_equal (@length str)) in Ecc. rewrite !app_length in Ecc. cbn [length] in Ecc. lia. }
  unfold hbind at 1. rewrite (open_new cwd (pstr p) i n (mkWorld h1 None) Hs Ec Hdl Hdd Hnul); cbn [w_fs w_left]; rewrite ?Est; cbn [app]; auto; [|rewrite <- Ep, Hh1p; discriminate].
  rewrite <- Ep. cbn [w_fs]. unfold packed_to. destruct (pk (hset h1 p (HFile [])) q) as [b' r']. cbn [fst snd]. destruct r' as [[]|e|e|]; reflexivity.
Qed.
Lemma c73_lemma m m' cwd x w p q t img : Forall unix_name cwd -> w_left w = None -> rooted (w_fs w) -> canonicalize (w_fs w) cwd x = Ok p -> w_fs w p = Some (HFile img) ->
  moved_to p q -> p <> q -> w_fs w q <> Some HDir -> source t -> latin_tree t -> packs m t img ->
  exists t' img' o w', same_tree t t'
   /\ returns (fun fuel => exiso_repack cwd (image_packer fuel m') None false [x] w) (w', o)
   /\ w_fs w' q = Some (HFile img) /\ w_fs w' p = Some (HFile img') /\ (forall z, z <> p -> z <> q -> w_fs w' z = w_fs w z)
   /\ (o = Ok tt /\ packs m' t' img' /\ readable (file_dev img') t
       \/ o = Err HPack /\ exists p cs s, at_path t' p (FDir cs) /\ table_size m' cs s /\ 262144 < s).
Proof.
  intros Hcwd HL HR Hc Hb Hm Hpq Hq HS HLt Hp. set (h1 := hset (hunset (w_fs w) p) q (HFile img)).
  destruct (image_packer_run m m' t img (hset h1 p (HFile [])) q HS HLt Hp) as (t' & img' & o & H1 & (k & H2) & H3).
  { rewrite hset_neq by auto. apply hset_eq. }
  exists t', img', o, (mkWorld (hset (hset h1 p (HFile [])) p (HFile img')) None). cbn [w_fs]. ssplit; auto.
  - exists k. intros fuel Hf. rewrite (rewrite_run cwd _ x w p q img) by auto. fold h1. unfold packed_to. rewrite (H2 fuel Hf). reflexivity.
  - rewrite !hset_neq by auto. apply hset_eq.
  - apply hset_eq.
  - intros z Hz1 Hz2. rewrite !hset_neq by auto. unfold h1. rewrite hset_neq by auto. unfold hunset. destruct (hpath_eqb_spec z p); [congruence|reflexivity].
Qed.
