(** Proofs about M_Desk (C85-C88). *)
From Verif Require Import M_Base M_Util M_Layout M_Read M_Img M_Dev M_Xfs M_Remap M_Cli M_Unpack M_Exiso M_Stdfs M_Host M_Desk.
From Verif Require Import S_Avl S_Codec S_Table S_Read S_Img S_Dev S_Trie S_Xfs S_Check S_Cli S_Unpack S_Exiso S_Stdfs S_Desk.
From Verif Require Import P_Base P_Tree P_Pack P_Image P_Packed P_More P_Cli P_Host P_Unpack P_Exiso P_Stdfs.
From Verif Require Import M_Host.
From Coq Require Import Init.Byte.
Local Open Scope N_scope.

Definition silent (r : res herr (option str)) : Prop := match r with Ok o => o = None | Err _ => False | _ => True end.
Lemma or_none_silent {A} (x : hprog A) k w : (forall a w, silent (snd (k a w))) -> silent (snd (or_none x k w)).
Proof. intros H. unfold or_none. destruct (x w) as [w' [a|e|p|]]; cbn; auto. Qed.
Lemma silent_told r : silent r -> ~ reports_error r.
Proof. intros H (o & e & -> & E). cbn in H. subst. discriminate. Qed.

Lemma desk_pack_silent cwd pk s d w : silent (snd (desk_pack cwd pk s d w)).
Proof. apply or_none_silent; intros a w1. apply or_none_silent; intros [s' n] w2. apply or_none_silent. intros b w3. reflexivity. Qed.
Lemma desk_unpack_silent fuel cwd s d w : silent (snd (desk_unpack fuel cwd s d w)).
Proof.
  apply or_none_silent; intros [s' [|file]] w1; [reflexivity|]. destruct (cmd_unpack fuel cwd s file (Some d) w1) as [w2 [a|e|p|]]; cbn; auto.
Qed.
Lemma desk_compress_silent cwd cp s w : silent (snd (desk_compress cwd cp s w)).
Proof. apply or_none_silent; intros [s' n] w1. apply or_none_silent. intros b w3. reflexivity. Qed.
Lemma c85_lemma r : (exists cwd pk s d w, r = snd (desk_pack cwd pk s d w)) \/ (exists fuel cwd s d w, r = snd (desk_unpack fuel cwd s d w))
  \/ (exists cwd cp s w, r = snd (desk_compress cwd cp s w)) -> ~ reports_error r.
Proof.
  intros [(cwd & pk & s & d & w & ->)|[(fuel & cwd & s & d & w & ->)|(cwd & cp & s & w & ->)]]; apply silent_told;
    [apply desk_pack_silent|apply desk_unpack_silent|apply desk_compress_silent].
Qed.

(** ** Packing *)
Lemma desk_pack_run cwd pk s i w p n : canonicalize (hset (w_fs w) (place cwd i) (HFile [])) cwd s = Ok p -> w_fs w p = Some n -> p <> place cwd i -> ready_for_file cwd i w ->
  desk_pack cwd pk s i w = or_none (put_packed (place cwd i) (pk (hset (w_fs w) (place cwd i) (HFile [])) p)) (fun _ => hret None) (mkWorld (hset (w_fs w) (place cwd i) (HFile [])) None).
Proof.
  intros Hc Hp Hn HW. pose proof (ready_open _ _ _ HW) as Ho. unfold desk_pack. unfold or_none at 1. rewrite Ho. unfold or_none at 1, hres, existing. cbn [w_fs]. rewrite Hc. cbn [bind].
  rewrite hset_neq by auto. rewrite Hp. reflexivity.
Qed.

(** A new file elsewhere does not matter for walking through directories. *)
Definition only_file (o : list str) (h h' : host) : Prop := (forall q, q <> o -> h' q = h q) /\ h o <> Some HDir /\ exists b, h' o = Some (HFile b).
Lemma hwalk_mono o h h' cs : only_file o h h' -> forall cur d, hwalk h cur cs = Ok d -> hwalk h' cur cs = Ok d.
Proof.
  intros (H1 & H2 & b & H3). induction cs as [|c cs IH]; intros cur d; cbn; auto. destruct (is_dotdot c); auto.
  destruct (hpath_eqb_spec (cur ++ [c]) o) as [E|E]; [rewrite E; destruct (h o) as [[|]|]; congruence|]. rewrite H1 by auto. destruct (h (cur ++ [c])) as [[|]|]; auto; discriminate.
Qed.
Lemma canonicalize_mono o h h' cwd s p : only_file o h h' -> canonicalize h cwd s = Ok p -> p <> o -> canonicalize h' cwd s = Ok p.
Proof.
  intros HO. unfold canonicalize. destruct (has_nul (pcomps s)); [discriminate|]. destruct s as [|c0 s0]; [discriminate|]. set (s := c0 :: s0). unfold hlocate.
  destruct (split_last (pcomps s)) as [[i c]|]; [|intros H _; exact H].
  destruct (hwalk h (hstart cwd s) i) as [d|e|e|] eqn:E; cbn [bind]; try discriminate. rewrite (hwalk_mono _ _ _ _ HO _ _ E). cbn [bind].
  destruct (is_dotdot c); [intros H _; exact H|]. cbn [bind]. intros H Hn. assert (Ep : p = d ++ [c]) by (destruct (h (d ++ [c])) as [[|]|]; try destruct (dirlike s); congruence).
  subst p. destruct HO as (H1 & _). rewrite H1 by exact Hn. exact H.
Qed.
Lemma ready_only cwd i w : ready_for_file cwd i w -> only_file (place cwd i) (w_fs w) (hset (w_fs w) (place cwd i) (HFile [])).
Proof.
  intros (_ & _ & _ & _ & _ & dir & n & E & _ & H). split; [intros q Hq; apply hset_neq; auto|]. rewrite <- E in H. split; [exact H|]. exists []. apply hset_eq.
Qed.

Lemma c86_lemma m ls cwd src i w p t : canonicalize (w_fs w) cwd src = Ok p -> hosts (w_fs w) ls p t -> source t -> representable m t ->
  ready_for_file cwd i w -> ~ leads_to p (place cwd i) ->
  exists w' img, returns (fun fuel => desk_pack cwd (std_packer ls fuel m) src i w) (w', Ok None)
   /\ w_fs w' (place cwd i) = Some (HFile img) /\ (forall q, q <> place cwd i -> w_fs w' q = w_fs w q) /\ packs m t img.
Proof.
  intros Hc HH HS HR HW Hn. destruct (std_packer_run m _ ls p t HS (hosts_hset _ _ _ _ (place cwd i) (HFile []) Hn HH)) as (img & o & (k & R) & [(_ & -> & HP)|(Hf & _)]); [|destruct (Hf HR)].
  assert (Hp : w_fs w p = Some HDir).
  { destruct HH as (H1 & _). specialize (H1 [] t (at_here t)). rewrite app_nil_r in H1. rewrite H1. destruct HS as (HS & _). destruct t; [discriminate|reflexivity]. }
  assert (Hne : p <> place cwd i) by (intros ->; apply Hn; exists []; rewrite app_nil_r; reflexivity).
  exists (mkWorld (hset (hset (w_fs w) (place cwd i) (HFile [])) (place cwd i) (HFile img)) None), img. cbn [w_fs]. ssplit; auto.
  - exists k. intros fuel Hf. rewrite (desk_pack_run cwd _ src i w p HDir); auto; [|eapply canonicalize_mono; [apply ready_only; auto|exact Hc|exact Hne]].
    rewrite (R fuel Hf). reflexivity.
  - apply hset_eq.
  - intros q Hq. rewrite !hset_neq by auto. reflexivity.
Qed.

(** Whatever happens, only the output changes. *)
Lemma open_changes cwd i w w' r : no_dotdot i -> open_trunc cwd i w = (w', r) ->
  match r with Ok o => o = place cwd i /\ changes_only (place cwd i) (w_fs w) (w_fs w') /\ (exists b, w_fs w' o = Some (HFile b)) | _ => w' = w end.
Proof.
  intros Hd. unfold open_trunc. destruct (has_nul (pcomps i)); [intros H; injection H as <- <-; reflexivity|]. destruct i as [|c0 i0]; [intros H; injection H as <- <-; reflexivity|]. set (i := c0 :: i0) in *.
  destruct (dirlike i); [intros H; injection H as <- <-; reflexivity|]. pose proof (hlocate_case (w_fs w) (hstart cwd i) (pcomps i) Hd) as L.
  destruct (hlocate (w_fs w) (hstart cwd i) (pcomps i)) as [[d [c|]]|e|e|]; try (intros H; injection H as <- <-; reflexivity).
  destruct L as (j & Ej & ->). assert (E : (hstart cwd i ++ j) ++ [c] = place cwd i) by (unfold place; rewrite Ej, app_assoc; reflexivity). rewrite E.
  destruct (w_fs w (place cwd i)) as [[|b]|] eqn:Eo; try (intros H; injection H as <- <-; reflexivity); destruct (spend w 1 <? 1); intros H; injection H as <- <-; try reflexivity;
    (split; [reflexivity|]; split; [|exists []; cbn; apply hset_eq]); intros q; cbn; unfold hset; (destruct (hpath_eqb_spec q (place cwd i)) as [->|]; [right|left; reflexivity]);
    (split; [reflexivity|]; split; [congruence|eauto]).
Qed.
Lemma desk_pack_changes cwd pk s i w w' r : no_dotdot i -> desk_pack cwd pk s i w = (w', r) -> changes_only (place cwd i) (w_fs w) (w_fs w').
Proof.
  intros Hd. unfold desk_pack. unfold or_none at 1. destruct (open_trunc cwd i w) as [w1 r1] eqn:E1. pose proof (open_changes _ _ _ _ _ Hd E1) as H1.
  assert (Hw : forall x : host, changes_only (place cwd i) x x) by (intros x q; left; reflexivity).
  destruct r1 as [o|e|e|]; try (intros H; injection H as <- <-; subst; apply Hw). destruct H1 as (-> & H1 & b & H2). unfold or_none at 1, hres.
  destruct (existing (w_fs w1) cwd s) as [[p n]|e|e|]; try (intros H; injection H as <- <-; exact H1).
  unfold or_none, put_packed. set (x := pk (w_fs w1) p). assert (G : changes_only (place cwd i) (w_fs w) (w_fs (after w1 (hset (w_fs w1) (place cwd i) (HFile (fst x))) 0))).
  { intros q. cbn. unfold hset. destruct (hpath_eqb_spec q (place cwd i)) as [->|]; [|apply H1]. right. split; [reflexivity|]. split; [|eauto].
    destruct (H1 (place cwd i)) as [E|(_ & E & _)]; [|exact E]. rewrite <- E, H2. discriminate. }
  destruct (snd x); cbn; intros H; injection H as <- <-; exact G.
Qed.
Lemma c87_lemma cwd pk s i w w' r p : no_dotdot i -> canonicalize (w_fs w) cwd s = Ok p -> ~ leads_to p (place cwd i) -> desk_pack cwd pk s i w = (w', r) -> untouched p (w_fs w) (w_fs w').
Proof. intros Hd _ Hn H q Hq. destruct (desk_pack_changes _ _ _ _ _ _ _ Hd H q) as [E|(-> & _)]; [exact E|]. destruct (Hn Hq). Qed.

(** ** Unpacking *)
Lemma c88_same fuel cwd s d w p file : canonicalize (w_fs w) cwd s = Ok p -> w_fs w p = Some (HFile file) ->
  fst (desk_unpack fuel cwd s d w) = fst (cmd_unpack fuel cwd s file (Some d) w).
Proof.
  intros Hc Hp. unfold desk_unpack, or_none, hres, existing. rewrite Hc. cbn [bind]. rewrite Hp. cbn [ok_or bind]. destruct (cmd_unpack fuel cwd s file (Some d) w) as [w' [a|e|e|]]; reflexivity.
Qed.
Lemma c88_lemma cwd s d w p file t : canonicalize (w_fs w) cwd s = Ok p -> w_fs w p = Some (HFile file) -> is_image file t -> unix_tree t -> ready_for cwd d t w ->
  exists w', returns (fun fuel => desk_unpack fuel cwd s d w) (w', Ok None) /\ restored (place cwd d) t (w_fs w) (w_fs w').
Proof.
  intros Hc Hp HI HU HR. destruct (c48_lemma cwd s file d t w HI HU HR) as (w' & (k & R) & HW). exists w'. split; [|exact HW]. exists k. intros fuel Hf.
  unfold desk_unpack, or_none, hres, existing. rewrite Hc. cbn [bind]. rewrite Hp. cbn [ok_or bind]. rewrite (R fuel Hf). reflexivity.
Qed.

Lemma c85_page r : match r with Some e => page_result r = inr e | None => page_result r = inl tt end.
Proof. destruct r; reflexivity. Qed.
