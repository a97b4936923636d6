(** The browser back end: unpacking (C96-C99). *)
From Verif Require Import M_Base M_Util M_Layout M_Read M_Img M_Dev M_Xfs M_Check M_Cli M_Unpack M_Host M_Web.
From Verif Require Import S_Avl S_Codec S_Table S_Read S_Img S_Dev S_Check S_Cli S_Unpack S_Web.
From Verif Require Import P_Base P_Codec P_Read P_Find P_Tree P_Pack P_Bytes P_Back P_More P_Order P_Repack P_Check P_Cli P_Host P_Unpack.
From Coq Require Import Init.Byte Permutation Lia.
Local Open Scope N_scope.

Lemma push_stack dir es : forall stack, push_entries dir es stack = map (pair dir) (rev es) ++ stack.
Proof.
  unfold push_entries. induction es as [|e es IH]; intros stack; [reflexivity|]. cbn [fold_left rev]. rewrite IH, map_app, <- app_assoc. reflexivity.
Qed.

Section Unpack.
Variables (accepts : str -> bool) (file : list byte) (base : N).
Let d := offset_dev (file_dev file) base.
Notation loop := (fun fuel wf => web_unpack_loop fuel wf accepts file base).

Inductive shown : ftree -> region -> Prop :=
| sh_file b r : file_data file base r = b -> (b = [] -> r_size r = 0) -> shown (FFile b) r
| sh_dir cs r es : returns (fun fuel => walk_dirent_tree fuel d r) (Ok es) ->
    Forall2 (fun c e => name_str e = fst c /\ is_dir e = is_fdir (snd c) /\ shown (snd c) (region_of e)) cs (rev es) -> shown (FDir cs) r.

Lemma contains_shown t : lawful d -> forall r, contains d t r -> exists t', same_tree t t' /\ shown t' r.
Proof.
  intros HL. induction t as [b|cs IH] using ftree_rect'; intros r Hc.
  - exists (FFile b). split; [constructor|]. constructor; [apply data_contained; exact Hc|]. intros ->. inversion Hc as [? ? Hr| |]; subst. exact Hr.
  - pose proof Hc as Hc'. apply contains_dir_inv in Hc as [(-> & HZ)|(T & es & HD & HP & HF)].
    + exists (FDir []). split; [eapply same_dir; [reflexivity|constructor]|]. eapply sh_dir with (es := []); [|constructor].
      exists O. intros fuel _. unfold walk_dirent_tree. rewrite (proj2 (region_empty_iff r) HZ). reflexivity.
    + assert (X : exists cs1, Forall2 (fun c d => fst c = fst d /\ same_tree (snd c) (snd d)) cs cs1
         /\ Forall2 (fun c e => name_str e = fst c /\ is_dir e = is_fdir (snd c) /\ shown (snd c) (region_of e)) cs1 es).
      { clear HD HP Hc' T. induction HF as [|[n t] e cs es (E1 & E2 & E3) HF IHF]; [exists []; split; constructor|].
        inversion IH as [|? ? I1 I2]; subst. destruct (IHF I2) as (cs1 & A & B). destruct (I1 _ E3) as (t1 & A1 & B1). cbn [fst snd] in *.
        exists ((n, t1) :: cs1). split; constructor; auto. cbn [fst snd]. rewrite <- (same_kind _ _ A1). auto. }
      destruct X as (cs1 & A & B).
      assert (HP' : Permutation es (rev (rpre T))) by (rewrite HP, <- (rpre_perm T); apply Permutation_rev).
      assert (B' : Forall2 (fun e c => name_str e = fst c /\ is_dir e = is_fdir (snd c) /\ shown (snd c) (region_of e)) es cs1) by (clear -B; induction B; constructor; auto).
      destruct (Permutation_Forall2 HP' B') as (cs2 & P2 & F2). exists (FDir cs2). split.
      * eapply same_dir; [apply Permutation_sym; exact P2|exact A].
      * eapply sh_dir with (es := rpre T); [exists (S (size T)); intros fuel Hf; apply walk_tree_dir; auto|]. clear -F2. induction F2; constructor; auto.
Qed.

Definition ann (c : N) (evs : list event) : N := fold_left (fun c e => match e with EFileCount n => n | _ => c end) evs c.
Definition below_count (t : ftree) : N := entry_count t - 1.
Definition mergeable (loc : list str) (t : ftree) (h : host) : Prop := same_kinds loc t h /\ no_leftovers loc t h.

(** The entry [e] on top of the stack is the tree [t]: after [k] rounds it is done. *)
Definition unpacks (t : ftree) (e : dentry) : Prop :=
  exists k N0, forall parent, exists evs1 : N -> list event, (forall count, ann count (evs1 count) = count + below_count t /\ done_count (evs1 count) = shown_count t)
   /\ forall h, h parent = Some HDir -> mergeable (parent ++ [name_str e]) t h -> exists h', merged (parent ++ [name_str e]) t h h'
   /\ forall fuel wf stack count evs, (N0 <= wf)%nat ->
      loop (k + fuel)%nat wf ((parent, e) :: stack) count (mkWorld h None) evs = loop fuel wf stack (count + below_count t) (mkWorld h' None) (evs ++ evs1 count).

Definition children_of (dir : list str) (cs : list (str * ftree)) (q : list str) (t' : ftree) : Prop := exists n t p, In (n, t) cs /\ at_path t p t' /\ q = dir ++ n :: p.

Lemma done_app a b : done_count (a ++ b) = done_count a + done_count b.
Proof. unfold done_count. rewrite filter_app, len_app. reflexivity. Qed.
Lemma ann_app c a b : ann c (a ++ b) = ann (ann c a) b.
Proof. unfold ann. apply fold_left_app. Qed.
Lemma entry_pos t : 1 <= entry_count t.
Proof. destruct t; cbn [entry_count]; lia. Qed.

Lemma unpacks_all cs es : Forall2 (fun c e => name_str e = fst c /\ unpacks (snd c) e) cs es -> NoDup (map fst cs) ->
  exists k N0, forall dir, exists evs1 : N -> list event,
   (forall count, ann count (evs1 count) = count + fold_right (fun c k => below_count (snd c) + k) 0 cs
      /\ done_count (evs1 count) = fold_right (fun c k => shown_count (snd c) + k) 0 cs)
   /\ forall h, h dir = Some HDir -> (forall n t, In (n, t) cs -> mergeable (dir ++ [n]) t h) ->
  exists h', (forall q t', children_of dir cs q t' -> h' q = Some (as_node t')) /\ (forall q, (forall t', ~ children_of dir cs q t') -> h' q = h q)
   /\ forall fuel wf stack count evs, (N0 <= wf)%nat ->
      loop (k + fuel)%nat wf (map (pair dir) es ++ stack) count (mkWorld h None) evs
      = loop fuel wf stack (count + fold_right (fun c k => below_count (snd c) + k) 0 cs) (mkWorld h' None) (evs ++ evs1 count).
Proof.
  induction 1 as [|[n t] e cs es (En & Hu) HF IH]; intros HN.
  - exists O, O. intros dir. exists (fun _ => []). split; [intros count; cbn; split; [rewrite N.add_0_r|]; reflexivity|].
    intros h _ _. exists h. split; [intros q t' (n & t & p & [] & _)|]. split; [reflexivity|]. intros fuel wf stack count evs _. cbn [fold_right map app Nat.add]. rewrite N.add_0_r, app_nil_r. reflexivity.
  - cbn [fst snd map] in *. inversion HN as [|? ? N1 N2]; subst. destruct (IH N2) as (k2 & M2 & H2). destruct Hu as (k1 & M1 & H1). clear IH.
    exists (k1 + k2)%nat, (Nat.max M1 M2). intros dir. destruct (H1 dir) as (e1 & X1 & H1'). destruct (H2 dir) as (e2 & X2 & H2'). clear H1 H2.
    exists (fun count => e1 count ++ e2 (count + below_count t)). split.
    { intros count. rewrite ann_app, done_app. destruct (X1 count) as (-> & ->). destruct (X2 (count + below_count t)) as (-> & ->). cbn [fold_right snd]. lia. }
    intros h Hd Hm.
    destruct (H1' h Hd (Hm _ t (or_introl eq_refl))) as (h1 & (A1 & A2) & A3).
    assert (Hd1 : h1 dir = Some HDir).
    { rewrite A2; [exact Hd|]. intros p t' _ E. apply (f_equal (@length str)) in E. rewrite !app_length in E. cbn in E. lia. }
    assert (Hother : forall n' p, n' <> name_str e -> h1 (dir ++ n' :: p) = h (dir ++ n' :: p)).
    { intros n' p Hn. apply A2. intros p' t' _ E. rewrite <- app_assoc in E. apply app_inv_head in E. injection E as E _. contradiction. }
    assert (Hm1 : forall n' t', In (n', t') cs -> mergeable (dir ++ [n']) t' h1).
    { intros n' t' Hin. assert (Hn : n' <> name_str e) by (intros ->; apply N1; apply (in_map fst) in Hin; exact Hin).
      destruct (Hm n' t' (or_intror Hin)) as (B1 & B2). split.
      - intros p x Hx. specialize (B1 p x Hx). rewrite <- app_assoc in *. cbn [app] in *. rewrite Hother; auto.
      - intros p b Hx Hh. apply (B2 p b Hx). rewrite <- app_assoc in *. cbn [app] in *. rewrite Hother in Hh; auto. }
    destruct (H2' h1 Hd1 Hm1) as (h2 & B1 & B2 & B3).
    exists h2. split; [|split].
    + intros q t' (n' & t1 & p & [[= <- <-]|Hin] & Hat & ->); [|apply B1; exists n', t1, p; auto].
      rewrite B2.
      * specialize (A1 p t' Hat). rewrite <- app_assoc in A1. exact A1.
      * intros t2 (n2 & t3 & p2 & Hin & _ & E). apply app_inv_head in E. injection E as E _. apply N1. rewrite E. apply (in_map fst) in Hin. exact Hin.
    + intros q Hq. rewrite B2 by (intros t' (n' & t1 & p & Hin & Hat & E); apply (Hq t'); exists n', t1, p; split; [right; exact Hin|split; auto]).
      apply A2. intros p t' Hat E. apply (Hq t'). exists (name_str e), t, p. split; [left; reflexivity|]. split; [exact Hat|]. rewrite E, <- app_assoc. reflexivity.
    + intros fuel wf stack count evs Hwf. rewrite <- Nat.add_assoc. cbn [app fold_right snd]. etransitivity; [apply A3; lia|]. etransitivity; [apply B3; lia|].
      rewrite N.add_assoc, app_assoc. reflexivity.
Qed.

Lemma valid_ok n : n <> [] /\ n <> [46] /\ n <> [46; 46] /\ ~ In 47 n /\ accepts n = true -> valid_name accepts n = true.
Proof.
  intros (H1 & H2 & H3 & H4 & H5). unfold valid_name. rewrite H5, andb_true_r, negb_true_iff. destruct n as [|x n]; [congruence|].
  assert (E1 : is_dot (x :: n) = false) by (unfold is_dot; apply not_true_iff_false; intros E; apply str_eqb_spec in E; contradiction).
  assert (E2 : is_dotdot (x :: n) = false) by (unfold is_dotdot; apply not_true_iff_false; intros E; apply str_eqb_spec in E; contradiction).
  rewrite E1, E2. cbn [orb]. apply not_true_iff_false. intros E. apply existsb_exists in E as (y & Hy & E). apply N.eqb_eq in E. apply H4. rewrite <- E in Hy. exact Hy.
Qed.

Lemma children_below dir n cs q t' : children_of (dir ++ [n]) cs q t' -> exists n' p, q = dir ++ n :: n' :: p.
Proof. intros (n' & t & p & _ & _ & ->). exists n', p. rewrite <- app_assoc. reflexivity. Qed.

Lemma shown_unpacks t : forall e, shown t (region_of e) -> is_dir e = is_fdir t -> valid_name accepts (name_str e) = true -> web_names accepts t -> proper t -> unpacks t e.
Proof.
  induction t as [b|cs IH] using ftree_rect'; intros e Hs Hd Hv Hn HP.
  - inversion Hs as [b' r' Hb Hb0|]; subst b' r'. exists 1%nat, O. intros parent.
    exists (fun _ => if r_size (region_of e) =? 0 then [] else [EFileAdded [name_str e] (r_size (region_of e))]).
    assert (Hz0 : r_size (region_of e) = 0 -> b = []) by (intros Hz; rewrite <- Hb; unfold file_data; rewrite Hz; reflexivity).
    split.
    { intros count. unfold below_count. cbn [entry_count shown_count]. destruct (N.eqb_spec (r_size (region_of e)) 0) as [Hz|Hz].
      - rewrite (Hz0 Hz). unfold ann, done_count. cbn. split; [apply eq_sym, N.add_0_r|reflexivity].
      - destruct b; [exfalso; auto|]. unfold ann, done_count. cbn. split; [apply eq_sym, N.add_0_r|reflexivity]. }
    intros h Hp (K1 & K2). specialize (K1 [] _ (at_here _)). rewrite app_nil_r in K1.
    assert (HC : exists h1, create_file accepts parent (name_str e) (mkWorld h None) = (mkWorld h1 None, Ok (parent ++ [name_str e]))
       /\ (forall q, q <> parent ++ [name_str e] -> h1 q = h q) /\ (b = [] -> h1 (parent ++ [name_str e]) = Some (HFile []))).
    { unfold create_file. rewrite Hv. cbn [negb w_fs]. destruct (h (parent ++ [name_str e])) as [[|b0]|] eqn:E; [contradiction| |].
      - exists h. split; [reflexivity|]. split; auto. intros ->. specialize (K2 [] b0 (at_here _)). rewrite app_nil_r in K2. rewrite E, (K2 E). reflexivity.
      - rewrite Hp. exists (hset h (parent ++ [name_str e]) (HFile [])). split; [reflexivity|]. split; [intros q Hq; apply hset_neq; exact Hq|]. intros _. apply hset_eq. }
    destruct HC as (h1 & C1 & C2 & C3).
    exists (if r_size (region_of e) =? 0 then h1 else hset h1 (parent ++ [name_str e]) (HFile b)). split.
    + split.
      * intros p t' Hat. inversion Hat; subst t' p. rewrite app_nil_r. destruct (N.eqb_spec (r_size (region_of e)) 0) as [Hz|Hz]; [|apply hset_eq].
        rewrite (Hz0 Hz). apply C3. apply Hz0. exact Hz.
      * intros q Hq. assert (Hne : q <> parent ++ [name_str e]) by (intros ->; apply (Hq [] _ (at_here _)); rewrite app_nil_r; reflexivity).
        destruct (r_size (region_of e) =? 0); [|rewrite hset_neq by exact Hne]; apply C2; exact Hne.
    + intros fuel wf stack count evs _. unfold below_count. cbn [entry_count]. rewrite N.sub_diag, N.add_0_r.
      cbn [Nat.add web_unpack_loop]. rewrite is_dir_table, Hd. cbn [is_fdir]. rewrite C1. cbn [run_host]. fold (region_of e).
      destruct (r_size (region_of e) =? 0); [rewrite app_nil_r; reflexivity|].
      rewrite Hb. unfold replace_file, spend, after. cbn [w_left w_fs]. rewrite N.ltb_irrefl. reflexivity.
  - inversion Hs as [|cs' r' es Hw HF]; subst cs' r'. 
    assert (HU : Forall2 (fun c e => name_str e = fst c /\ unpacks (snd c) e) cs (rev es)).
    { assert (HC : forall c, In c cs -> proper (snd c) /\ web_names accepts (snd c) /\ valid_name accepts (fst c) = true).
      { intros [n c] Hc. cbn [fst snd]. split; [|split].
        - intros p xs Hat. apply (HP (n :: p)). econstructor; eauto.
        - intros p xs Hat. apply (Hn (n :: p)). econstructor; eauto.
        - apply valid_ok. apply (Hn [] cs (at_here _)). apply (in_map fst) in Hc. exact Hc. }
      clear -HF HC IH. revert HC. induction HF as [|c e cs l (E1 & E2 & E3) HF IHF]; intros HC; constructor.
      - split; [exact E1|]. destruct (HC c (or_introl eq_refl)) as (A & B & C). inversion IH; subst. apply H1; auto. rewrite E1. exact C.
      - inversion IH; subst. apply IHF; auto. intros c' Hc'. apply HC. right. exact Hc'. }
    assert (HN : NoDup (map fst cs)) by (apply (HP [] cs); constructor).
    destruct (unpacks_all cs (rev es) HU HN) as (k & N0 & H). destruct Hw as (N1 & Hw).
    assert (Hlen : len es = len cs) by (apply Forall2_length in HF; rewrite rev_length in HF; unfold len; rewrite HF; reflexivity).
    exists (S k), (Nat.max N0 N1). intros parent. destruct (H (parent ++ [name_str e])) as (e1 & X1 & H1). clear H.
    exists (fun count => [EFileCount (count + len es); EFileAdded [name_str e] (r_size (region_of e))] ++ e1 (count + len es)).
    assert (Hcnt : len es + fold_right (fun c k => below_count (snd c) + k) 0 cs = below_count (FDir cs)).
    { rewrite Hlen. unfold below_count. cbn [entry_count]. clear. induction cs as [|[n t] cs IH]; [reflexivity|]. cbn [fold_right snd]. rewrite len_cons. pose proof (entry_pos t). lia. }
    split.
    { intros count. rewrite ann_app, done_app. destruct (X1 (count + len es)) as (X2 & X3). cbn [ann fold_left]. rewrite X2, X3, <- Hcnt. split; [lia|reflexivity]. }
    intros h Hp (K1 & K2). pose proof (K1 [] _ (at_here _)) as K0. rewrite app_nil_r in K0.
    set (dir := parent ++ [name_str e]) in *.
    assert (HC : exists h1, create_directory accepts parent (name_str e) (mkWorld h None) = (mkWorld h1 None, Ok dir)
       /\ (forall q, q <> dir -> h1 q = h q) /\ h1 dir = Some HDir).
    { unfold create_directory. rewrite Hv. cbn [negb w_fs]. fold dir. destruct (h dir) as [[|b0]|] eqn:E; [|contradiction|].
      - exists h. auto.
      - rewrite Hp. exists (hset h dir HDir). split; [reflexivity|]. split; [intros q Hq; apply hset_neq; exact Hq|]. apply hset_eq. }
    destruct HC as (h1 & C1 & C2 & C3).
    assert (Hne : forall n p, dir ++ n :: p <> dir) by (intros n p E; apply (f_equal (@length str)) in E; rewrite app_length in E; cbn in E; lia).
    assert (Hm1 : forall n t, In (n, t) cs -> mergeable (dir ++ [n]) t h1).
    { intros n t Hin. split.
      - intros p x Hx. specialize (K1 (n :: p) x ltac:(econstructor; eauto)). rewrite <- app_assoc. cbn [app]. rewrite C2; auto.
      - intros p b0 Hx Hh. apply (K2 (n :: p) b0); [econstructor; eauto|]. rewrite <- app_assoc in Hh. cbn [app] in Hh. rewrite C2 in Hh; auto. }
    destruct (H1 h1 C3 Hm1) as (h2 & B1 & B2 & B3).
    exists h2. split.
    + split.
      * intros p t' Hat. inversion Hat as [|cs' n c p' t1 Hin Hat']; subst.
        -- rewrite app_nil_r, B2; [exact C3|]. intros t' (n & t & p & _ & _ & E). symmetry in E. exact (Hne n p E).
        -- apply B1. exists n, c, p'. auto.
      * intros q Hq. rewrite B2.
        -- apply C2. intros ->. apply (Hq [] _ (at_here _)). rewrite app_nil_r. reflexivity.
        -- intros t' (n & c & p & Hin & Hat & ->). apply (Hq (n :: p) t'); [econstructor; eauto|reflexivity].
    + intros fuel wf stack count evs Hwf. cbn [Nat.add web_unpack_loop]. rewrite is_dir_table, Hd. cbn [is_fdir]. rewrite C1. cbn [run_host]. fold (region_of e). fold d. rewrite (Hw wf) by lia. cbn [run_read].
      rewrite push_stack. etransitivity; [apply B3; lia|]. rewrite <- Hcnt, N.add_assoc, <- app_assoc. reflexivity.
Qed.
End Unpack.

Lemma same_node s s' : same_tree s s' -> as_node s' = as_node s.
Proof. destruct 1; reflexivity. Qed.
Lemma merged_same loc t t' h h' : same_tree t t' -> merged loc t' h h' -> merged loc t h h'.
Proof.
  intros Hs (A & B). split.
  - intros p s Hat. destruct (same_at _ _ _ Hat _ Hs) as (s' & H1 & H2). rewrite (A _ _ H1), (same_node _ _ H2). reflexivity.
  - intros q Hq. apply B. intros p s Hat. destruct (P_Repack.same_at_back _ _ _ Hat _ Hs) as (s' & H1 & _). exact (Hq _ _ H1).
Qed.
Lemma kinds_same loc t t' h : same_tree t t' -> same_kinds loc t h -> same_kinds loc t' h.
Proof.
  intros Hs H p s Hat. destruct (P_Repack.same_at_back _ _ _ Hat _ Hs) as (s' & H1 & H2). specialize (H _ _ H1). inversion H2; subst; exact H.
Qed.
Lemma leftovers_same loc t t' h : same_tree t t' -> no_leftovers loc t h -> no_leftovers loc t' h.
Proof.
  intros Hs H p b Hat. destruct (P_Repack.same_at_back _ _ _ Hat _ Hs) as (s' & H1 & H2). apply same_file_r in H2 as ->. exact (H _ _ H1).
Qed.
Lemma names_same acc t t' : same_tree t t' -> web_names acc t -> web_names acc t'.
Proof.
  intros Hs H p cs Hat n Hn. destruct (P_Repack.same_at_back _ _ _ Hat _ Hs) as (s' & H1 & H2). destruct (same_dir_r _ _ H2) as (cs0 & ->).
  apply (H _ _ H1). eapply Permutation_in; [symmetry; apply same_fsts; exact H2|exact Hn].
Qed.
Lemma sum_same (f : ftree -> N) cs ds : Permutation cs ds -> fold_right (fun c k => f (snd c) + k) 0 cs = fold_right (fun (c : str * ftree) k => f (snd c) + k) 0 ds.
Proof. induction 1; cbn [fold_right]; lia. Qed.
Lemma counts_same t : forall t', same_tree t t' -> entry_count t' = entry_count t /\ shown_count t' = shown_count t.
Proof.
  induction t as [b|cs IH] using ftree_rect'; intros t' H; [apply same_file_l in H as ->; auto|].
  inversion H as [|? ds ds' HP HF]; subst. cbn [entry_count shown_count].
  rewrite (sum_same entry_count _ _ HP), (sum_same shown_count _ _ HP). clear HP H.
  induction HF as [|c d' l l' (_ & E) HF IHF]; [auto|]. inversion IH as [|? ? I1 I2]; subst. cbn [fold_right]. destruct (I1 _ E) as (E1 & E2). destruct (IHF I2). lia.
Qed.

Lemma announced_ann evs : forall c, fold_left (fun c e => match e with EFileCount n => Some n | _ => c end) evs (Some c) = Some (ann c evs).
Proof. induction evs as [|e evs IH]; intros c; [reflexivity|]. cbn [fold_left ann]. destruct e; apply IH. Qed.

Lemma c96_full accepts file loc t w : is_image file t -> web_names accepts t -> w_left w = None -> w_fs w loc = Some HDir ->
  same_kinds loc t (w_fs w) -> no_leftovers loc t (w_fs w) ->
  exists w' evs, returns (fun fuel => web_unpack fuel accepts file loc w) (w', evs, Ok tt) /\ merged loc t (w_fs w) (w_fs w')
    /\ announced evs = Some (entry_count t - 1) /\ done_count evs = shown_count t - 1.
Proof.
  intros (d & r & Ho & (v & Hv & ->) & Ht & Hc) Hn Hl Hd Hk Hlo. destruct (open_image_base _ _ Ho) as (base & Hb & ->).
  pose proof (image_lawful _ _ Ho) as Hlaw. destruct (contains_shown file base t Hlaw _ Hc) as (t' & Hsame & Hsh).
  pose proof (contains_proper _ _ _ Hc) as HP. destruct t as [|cs0]; [discriminate|]. destruct (same_fdir_l _ _ Hsame) as (cs & ->).
  assert (HP' : proper (FDir cs)).
  { intros p xs Hat. destruct (P_Repack.same_at_back _ _ _ Hat _ Hsame) as (s & H1 & H2). destruct (same_dir_r _ _ H2) as (ys & ->).
    eapply Permutation_NoDup; [apply same_fsts; exact H2|]. exact (HP _ _ H1). }
  pose proof (names_same _ _ _ Hsame Hn) as Hn'. pose proof (kinds_same _ _ _ _ Hsame Hk) as Hk'. pose proof (leftovers_same _ _ _ _ Hsame Hlo) as Hlo'.
  inversion Hsh as [|cs' r' es Hw HF]; subst cs' r'.
  assert (HU : Forall2 (fun c e => name_str e = fst c /\ unpacks accepts file base (snd c) e) cs (rev es)).
  { clear -HF HP' Hn'. assert (HC : forall c, In c cs -> proper (snd c) /\ web_names accepts (snd c) /\ valid_name accepts (fst c) = true).
    { intros [n c] Hc. cbn [fst snd]. split; [|split].
      - intros p xs Hat. apply (HP' (n :: p)). econstructor; eauto.
      - intros p xs Hat. apply (Hn' (n :: p)). econstructor; eauto.
      - apply valid_ok. apply (Hn' [] cs (at_here _)). apply (in_map fst) in Hc. exact Hc. }
    clear HP' Hn'. induction HF as [|c e cs l (E1 & E2 & E3) HF IHF]; constructor.
    - split; [exact E1|]. destruct (HC c (or_introl eq_refl)) as (A & B & C). apply shown_unpacks; auto. rewrite E1. exact C.
    - apply IHF. intros c' Hc'. apply HC. right. exact Hc'. }
  destruct (unpacks_all accepts file base cs (rev es) HU (HP' [] cs (at_here _))) as (k & N0 & H). destruct (H loc) as (e1 & X1 & H1). destruct Hw as (N1 & Hw).
  assert (Hlen : len es = len cs) by (apply Forall2_length in HF; rewrite rev_length in HF; unfold len; rewrite HF; reflexivity).
  assert (Hm : forall n t, In (n, t) cs -> mergeable (loc ++ [n]) t (w_fs w)).
  { intros n t Hin. split.
    - intros p x Hx. specialize (Hk' (n :: p) x ltac:(econstructor; eauto)). rewrite <- app_assoc. exact Hk'.
    - intros p b Hx Hh. apply (Hlo' (n :: p) b); [econstructor; eauto|]. rewrite <- app_assoc in Hh. exact Hh. }
  assert (Ew : w = mkWorld (w_fs w) None) by (destruct w; cbn in *; subst; reflexivity).
  destruct (H1 (w_fs w) Hd Hm) as (h' & B1 & B2 & B3). exists (mkWorld h' None), ([EFileCount (len es)] ++ e1 (len es)). split; [|split].
  - exists (Nat.max k (Nat.max N0 N1)). intros fuel Hf. unfold web_unpack. rewrite Hb. cbn [run_read]. rewrite Hv. cbn [run_read]. rewrite (Hw fuel) by lia. cbn [run_read].
    rewrite Ew, push_stack. replace fuel with (k + (fuel - k))%nat at 1 by lia. rewrite (B3 (fuel - k)%nat fuel) by lia. destruct (fuel - k)%nat; reflexivity.
  - apply (merged_same _ _ _ _ _ Hsame). split; cbn [w_fs].
    + intros p t' Hat. inversion Hat as [|cs' n c p' t1 Hin Hat']; subst.
      * rewrite app_nil_r, B2; [exact Hd|]. intros t' (n & t & p & _ & _ & E). apply (f_equal (@length str)) in E. rewrite app_length in E. cbn in E. lia.
      * apply B1. exists n, c, p'. auto.
    + intros q Hq. apply B2. intros t' (n & c & p & Hin & Hat & ->). apply (Hq (n :: p) t'); [econstructor; eauto|reflexivity].
  - destruct (counts_same _ _ Hsame) as (<- & <-). destruct (X1 (len es)) as (X2 & X3). split.
    + unfold announced. cbn [app fold_left]. rewrite announced_ann, X2. f_equal. cbn [entry_count]. rewrite Hlen. clear. induction cs as [|[n t] cs IH]; [reflexivity|].
      cbn [fold_right snd]. rewrite len_cons. unfold below_count. pose proof (entry_pos t). unfold below_count in IH. lia.
    + rewrite done_app, X3. cbn [shown_count]. change (done_count [EFileCount (len es)]) with 0. lia.
Qed.

(** ** Untrusted images *)
Lemma valid_plain accepts n : valid_name accepts n = true -> plain_name n.
Proof.
  unfold valid_name. intros H. apply andb_true_iff in H as (H & _). rewrite negb_true_iff in H. destruct n as [|x n]; [discriminate|].
  apply orb_false_iff in H as (H & H3). apply orb_false_iff in H as (H1 & H2). split; [discriminate|]. split; [|split].
  - intros E. rewrite E in H1. discriminate.
  - intros E. rewrite E in H2. discriminate.
  - intros Hin. assert (X : existsb (N.eqb SLASH) (x :: n) = true) by (apply existsb_exists; exists 47; split; [exact Hin|reflexivity]). congruence.
Qed.

Lemma below_refl dest h : only_below dest h h.
Proof. intros q. left. reflexivity. Qed.
Lemma below_trans dest h1 h2 h3 : only_below dest h1 h2 -> only_below dest h2 h3 -> only_below dest h1 h3.
Proof.
  intros A B q. destruct (B q) as [E|(P & D & F)].
  - rewrite E. apply A.
  - right. split; [exact P|]. destruct (A q) as [E|(_ & D' & F')]; [rewrite <- E; auto|]. split; [exact D'|]. intros X. apply F. apply F'. exact X.
Qed.
Definition inside (dest p : list str) : Prop := exists p', p = dest ++ p' /\ Forall plain_name p'.
Lemma inside_snoc dest p n : inside dest p -> plain_name n -> inside dest (p ++ [n]).
Proof. intros (p' & -> & F) Hn. exists (p' ++ [n]). rewrite app_assoc. split; [reflexivity|]. apply Forall_app. auto. Qed.
Lemma below_set dest p n h x : inside dest p -> plain_name n -> h (p ++ [n]) = None -> only_below dest h (hset h (p ++ [n]) x).
Proof.
  intros (p' & -> & F) Hn Hh q. unfold hset. destruct (hpath_eqb_spec q ((dest ++ p') ++ [n])) as [->|]; [|left; reflexivity]. right. split; [|split].
  - exists (p' ++ [n]). split; [destruct p'; discriminate|]. split; [symmetry; apply app_assoc|]. apply Forall_app. auto.
  - rewrite Hh. discriminate.
  - intros (b & Hb). congruence.
Qed.
Lemma below_replace dest p n h b b' : inside dest p -> plain_name n -> h (p ++ [n]) = Some (HFile b) -> only_below dest h (hset h (p ++ [n]) (HFile b')).
Proof.
  intros (p' & -> & F) Hn Hh q. unfold hset. destruct (hpath_eqb_spec q ((dest ++ p') ++ [n])) as [->|]; [|left; reflexivity]. right. split; [|split].
  - exists (p' ++ [n]). split; [destruct p'; discriminate|]. split; [symmetry; apply app_assoc|]. apply Forall_app. auto.
  - rewrite Hh. discriminate.
  - intros _. eauto.
Qed.

Lemma create_directory_below accepts dest p n w w' r : inside dest p -> create_directory accepts p n w = (w', r) ->
  only_below dest (w_fs w) (w_fs w') /\ forall dir, r = Ok dir -> inside dest dir.
Proof.
  intros Hp. unfold create_directory. destruct (valid_name accepts n) eqn:Hv; cbn [negb]; [|intros [= <- <-]; split; [apply below_refl|discriminate]].
  pose proof (valid_plain _ _ Hv) as Hn.
  destruct (w_fs w (p ++ [n])) as [[|b]|] eqn:E.
  - intros [= <- <-]. split; [apply below_refl|]. intros dir [= <-]. apply inside_snoc; auto.
  - intros [= <- <-]. split; [apply below_refl|discriminate].
  - destruct (w_fs w p) as [[|b]|]; try (intros [= <- <-]; split; [apply below_refl|discriminate]).
    destruct (spend w 1 <? 1); intros [= <- <-]; [split; [apply below_refl|discriminate]|]. split; [apply below_set; auto|]. intros dir [= <-]. apply inside_snoc; auto.
Qed.
Lemma create_file_below accepts dest p n w w' r : inside dest p -> create_file accepts p n w = (w', r) ->
  only_below dest (w_fs w) (w_fs w') /\ forall q, r = Ok q -> q = p ++ [n] /\ plain_name n /\ exists b, w_fs w' (p ++ [n]) = Some (HFile b).
Proof.
  intros Hp. unfold create_file. destruct (valid_name accepts n) eqn:Hv; cbn [negb]; [|intros [= <- <-]; split; [apply below_refl|discriminate]].
  pose proof (valid_plain _ _ Hv) as Hn.
  destruct (w_fs w (p ++ [n])) as [[|b]|] eqn:E.
  - intros [= <- <-]. split; [apply below_refl|discriminate].
  - intros [= <- <-]. split; [apply below_refl|]. intros q [= <-]. eauto.
  - destruct (w_fs w p) as [[|b]|]; try (intros [= <- <-]; split; [apply below_refl|discriminate]).
    destruct (spend w 1 <? 1); intros [= <- <-]; [split; [apply below_refl|discriminate]|]. split; [apply below_set; auto|]. intros q [= <-]. cbn [after w_fs]. rewrite hset_eq. eauto.
Qed.

Lemma loop_below accepts file base dest wf : forall fuel stack count w evs, Forall (fun x => inside dest (fst x)) stack ->
  only_below dest (w_fs w) (w_fs (fst (fst (web_unpack_loop fuel wf accepts file base stack count w evs)))).
Proof.
  induction fuel as [|fuel IH]; intros [|[p e] stack] count w evs HF; try apply below_refl. inversion HF as [|? ? Hp HF']; subst. cbn [fst] in Hp.
  cbn [web_unpack_loop]. destruct (dirent_table (d_dirent (e_node e))) as [tab|].
  - destruct (create_directory accepts p (name_str e) w) as [w1 r] eqn:E. destruct (create_directory_below _ _ _ _ _ _ _ Hp E) as (B & D).
    destruct r as [dir|x|x|]; cbn [run_host]; try exact B. destruct (walk_dirent_tree _ _ _) as [es|x|x|]; cbn [run_read]; try exact B.
    eapply below_trans; [exact B|]. apply IH. rewrite push_stack. apply Forall_app. split; [|exact HF'].
    apply Forall_map, Forall_forall. intros x _. cbn [fst]. apply D. reflexivity.
  - destruct (create_file accepts p (name_str e) w) as [w1 r] eqn:E. destruct (create_file_below _ _ _ _ _ _ _ Hp E) as (B & D).
    destruct r as [q|x|x|]; cbn [run_host]; try exact B. destruct (D q eq_refl) as (-> & Hn & b & Hb). destruct (r_size _ =? 0).
    + eapply below_trans; [exact B|]. apply IH. exact HF'.
    + unfold replace_file. destruct (spend w1 _ <? _); cbn [run_host]; [exact B|]. eapply below_trans; [exact B|]. eapply below_trans; [|apply IH; exact HF'].
      cbn [after w_fs]. eapply below_replace; eauto.
Qed.

Lemma c97_lemma fuel accepts file dest w : only_below dest (w_fs w) (w_fs (fst (fst (web_unpack fuel accepts file dest w)))).
Proof.
  unfold web_unpack. destruct (offset_wrapper_new _) as [base|x|x|]; cbn [run_read]; try apply below_refl.
  destruct (read_volume _) as [v|x|x|]; cbn [run_read]; try apply below_refl. destruct (walk_dirent_tree _ _ _) as [es|x|x|]; cbn [run_read]; try apply below_refl.
  apply loop_below. rewrite push_stack, app_nil_r. apply Forall_map, Forall_forall. intros x _. cbn [fst]. exists []. rewrite app_nil_r. auto.
Qed.

(** ** Progress *)
Lemma no_empty_counts t : every_file (fun b => b <> []) t -> shown_count t = entry_count t.
Proof.
  induction t as [b|cs IH] using ftree_rect'; intros H.
  - specialize (H [] b (at_here _)). destruct b; [congruence|reflexivity].
  - cbn [shown_count entry_count]. f_equal.
    assert (HC : forall c, In c cs -> every_file (fun b => b <> []) (snd c)) by (intros [n c] Hc p b Hat; apply (H (n :: p)); econstructor; eauto).
    clear H. induction cs as [|c cs IHc]; [reflexivity|]. inversion IH as [|? ? I1 I2]; subst. cbn [fold_right]. rewrite (I1 (HC c (or_introl eq_refl))).
    rewrite IHc; auto. intros c' Hc'. apply HC. right. exact Hc'.
Qed.

Lemma c98_lemma accepts file loc t w : is_image file t -> web_names accepts t -> w_left w = None -> w_fs w loc = Some HDir ->
  same_kinds loc t (w_fs w) -> every_file (fun b => b <> []) t ->
  exists w' evs, returns (fun fuel => web_unpack fuel accepts file loc w) (w', evs, Ok tt)
    /\ announced evs = Some (entry_count t - 1) /\ done_count evs = entry_count t - 1.
Proof.
  intros H1 H2 H3 H4 H5 H6. destruct (c96_full accepts file loc t w H1 H2 H3 H4 H5) as (w' & evs & R & _ & A & B).
  - intros p b Hat. exfalso. exact (H6 p [] Hat eq_refl).
  - exists w', evs. rewrite <- (no_empty_counts t H6). rewrite <- (no_empty_counts t H6) in A. auto.
Qed.
Lemma c96_lemma accepts file loc t w : is_image file t -> web_names accepts t -> w_left w = None -> w_fs w loc = Some HDir ->
  same_kinds loc t (w_fs w) -> no_leftovers loc t (w_fs w) ->
  exists w' evs, returns (fun fuel => web_unpack fuel accepts file loc w) (w', evs, Ok tt) /\ merged loc t (w_fs w) (w_fs w').
Proof. intros H1 H2 H3 H4 H5 H6. destruct (c96_full accepts file loc t w H1 H2 H3 H4 H5 H6) as (w' & evs & R & M & _). eauto. Qed.
