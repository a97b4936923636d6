(** Reading a tree back from a device that holds it. *)
From Verif Require Import M_Base M_Util M_Layout M_Avl M_Sector M_Dirtab M_Read M_Img.
From Verif Require Import S_Avl S_Codec S_Table S_Read S_Img.
From Verif Require Import P_Base P_Codec P_Read P_Path P_Find P_Term P_Tree.
From Coq Require Import Init.Byte Permutation Sorted Lia.
Local Open Scope N_scope.

Lemma same_name_refl a : same_name a a.
Proof. reflexivity. Qed.
Lemma same_name_sym a b : same_name a b -> same_name b a.
Proof. unfold same_name. auto. Qed.
Lemma same_name_trans a b c : same_name a b -> same_name b c -> same_name a c.
Proof. unfold same_name. intros. etransitivity; eauto. Qed.
Lemma same_name_dec a b : {same_name a b} + {~ same_name a b}.
Proof. unfold same_name. apply list_eq_dec. apply N.eq_dec. Qed.

Section Held.
Variable d : dev.
Hypothesis HLaw : lawful d.

Lemma forall2_in_l {A B} (R : A -> B -> Prop) l l' x : Forall2 R l l' -> In x l -> exists y, In y l' /\ R x y.
Proof. induction 1; cbn; [tauto|]. intros [<-|Hx]; [eauto|]. destruct (IHForall2 Hx) as (z & ? & ?). eauto. Qed.
Lemma forall2_in_r {A B} (R : A -> B -> Prop) l l' y : Forall2 R l l' -> In y l' -> exists x, In x l /\ R x y.
Proof. induction 1; cbn; [tauto|]. intros [<-|Hx]; [eauto|]. destruct (IHForall2 Hx) as (z & ? & ?). eauto. Qed.

Lemma holds_dir_inv cs r : holds d (FDir cs) r -> exists T es, directory d r T /\ Permutation es (inorder T) /\
  Forall2 (fun c e => name_str e = fst c /\ is_dir e = is_fdir (snd c) /\ holds d (snd c) (region_of e)) cs es.
Proof. intros H. inversion H; subst. eauto. Qed.

Lemma holds_found t segs n t' : names t segs n t' -> forall r, holds d t r ->
  exists e, lookup d r segs (Ok e) /\ name_str e = n /\ is_dir e = is_fdir t' /\ holds d t' (region_of e).
Proof.
  induction 1 as [cs s n t Hin Hs|cs s n cs' segs n' t Hin Hs Hn IH]; intros r Hh; apply holds_dir_inv in Hh as (T & es & HD & HP & HF).
  - destruct (forall2_in_l _ _ _ _ HF Hin) as (e & He & E1 & E2 & E3). cbn [fst snd] in *. exists e. ssplit; auto.
    eapply lk_found; [exact HD|eapply Permutation_in; eauto|]. rewrite E1. exact Hs.
  - destruct (forall2_in_l _ _ _ _ HF Hin) as (e & He & E1 & E2 & E3). cbn [fst snd] in *.
    destruct (IH _ E3) as (e' & L & K). exists e'. split; auto.
    eapply lk_step; [exact HD|eapply Permutation_in; eauto|rewrite E1; exact Hs|inversion Hn; discriminate|exact E2|exact L].
Qed.

Lemma holds_missing t segs x : missing t segs x -> forall r, holds d t r -> lookup d r segs (Err x).
Proof.
  induction 1 as [cs s segs Hno|cs s n b segs Hin Hs Hne|cs s n cs' segs x Hin Hs Hm IH]; intros r Hh; apply holds_dir_inv in Hh as (T & es & HD & HP & HF).
  - eapply lk_absent; [exact HD|]. intros e He. apply (Permutation_in _ (Permutation_sym HP)) in He.
    destruct (forall2_in_r _ _ _ _ HF He) as ([n t] & Hc & E1 & _). cbn in E1. rewrite E1. eapply Hno; eauto.
  - destruct (forall2_in_l _ _ _ _ HF Hin) as (e & He & E1 & E2 & E3). cbn [fst snd] in *.
    eapply lk_file; [exact HD|eapply Permutation_in; eauto|rewrite E1; exact Hs|exact Hne|exact E2].
  - destruct (forall2_in_l _ _ _ _ HF Hin) as (e & He & E1 & E2 & E3). cbn [fst snd] in *.
    eapply lk_step; [exact HD|eapply Permutation_in; eauto|rewrite E1; exact Hs|inversion Hm; discriminate|exact E2|auto].
Qed.

Lemma find_or_missing segs : segs <> [] -> forall cs, (exists n t', names (FDir cs) segs n t') \/ (exists x, missing (FDir cs) segs x).
Proof.
  induction segs as [|s segs IH]; intros Hne cs; [congruence|].
  assert (Hd : (exists n t, In (n, t) cs /\ same_name s n) \/ (forall n t, In (n, t) cs -> ~ same_name s n)).
  { clear. induction cs as [|[n t] cs IH]; [right; intros ? ? []|]. destruct (same_name_dec s n) as [E|E]; [left; exists n, t; cbn; auto|].
    destruct IH as [(n' & t' & H1 & H2)|H]; [left; exists n', t'; cbn; auto|].
    right. intros n' t' [[= <- <-]|Hin]; auto. eapply H; eauto. }
  destruct Hd as [(n & t & Hin & Hs)|Hno]; [|right; exists DoesNotExist; constructor; auto].
  destruct segs as [|s' segs']; [left; exists n, t; constructor; auto|].
  destruct t as [b|cs']; [right; exists IsNotDirectory; eapply ms_file; eauto; discriminate|].
  destruct (IH ltac:(discriminate) cs') as [(n' & t' & H)|(x & H)].
  - left. exists n', t'. eapply nm_step; eauto.
  - right. exists x. eapply ms_step; eauto.
Qed.

Lemma names_case t segs n t' : names t segs n t' -> forall segs', Forall2 same_name segs segs' -> names t segs' n t'.
Proof.
  induction 1 as [cs s n t Hin Hs|cs s n cs' segs n' t Hin Hs Hn IH]; intros segs' HF; inversion HF as [|? s' ? segs2 H1 H2]; subst.
  - inversion H2; subst. constructor; auto. eapply same_name_trans; [apply same_name_sym; exact H1|exact Hs].
  - eapply nm_step; eauto. eapply same_name_trans; [apply same_name_sym; exact H1|exact Hs].
Qed.
Lemma missing_case t segs x : missing t segs x -> forall segs', Forall2 same_name segs segs' -> missing t segs' x.
Proof.
  induction 1 as [cs s segs Hno|cs s n b segs Hin Hs Hne|cs s n cs' segs x Hin Hs Hm IH]; intros segs' HF; inversion HF as [|? s' ? segs2 H1 H2]; subst.
  - constructor. intros n t Hin Hs'. apply (Hno n t Hin). eapply same_name_trans; eauto.
  - eapply ms_file; eauto; [eapply same_name_trans; [apply same_name_sym; exact H1|exact Hs]|]. intros ->. inversion H2. subst. congruence.
  - eapply ms_step; eauto. eapply same_name_trans; [apply same_name_sym; exact H1|exact Hs].
Qed.

(** Recursive listing *)
Lemma sub_listing_exists p es : (forall e, In e es -> is_dir e = true -> exists l, tree_listing d (p ++ [47] ++ name_str e) (region_of e) l) ->
  exists l, sub_listing d p es l.
Proof.
  induction es as [|e es IH]; intros H; [exists []; constructor|]. destruct IH as (l & Hl); [intros e' He'; apply H; right; auto|].
  destruct (is_dir e) eqn:Ed.
  - destruct (H e (or_introl eq_refl) Ed) as (l0 & H0). exists (l0 ++ l). eapply sl_dir; eauto.
  - exists l. apply sl_file; auto.
Qed.

Lemma perm_concat {A B} (f : A -> list B) l l' : Permutation l l' -> Permutation (concat (map f l)) (concat (map f l')).
Proof.
  induction 1; cbn; auto.
  - apply Permutation_app_head; auto.
  - rewrite !app_assoc. apply Permutation_app_tail, Permutation_app_comm.
  - etransitivity; eauto.
Qed.

Lemma sub_listing_concat es p (f : dentry -> list (str * str * option N)) :
  (forall e, In e es -> (is_dir e = false /\ f e = []) \/
     (is_dir e = true /\ exists l, tree_listing d (p ++ [47] ++ name_str e) (region_of e) l /\ Permutation (map entry_row l) (f e))) ->
  exists l, sub_listing d p es l /\ Permutation (map entry_row l) (concat (map f es)).
Proof.
  induction es as [|e es IH]; intros H; [exists []; split; constructor|].
  destruct IH as (l & H1 & H2); [intros e' He'; apply H; right; auto|].
  destruct (H e (or_introl eq_refl)) as [(Ed & Ef)|(Ed & l0 & H3 & H4)]; cbn [map concat].
  - exists l. split; [apply sl_file; auto|]. rewrite Ef. exact H2.
  - exists (l0 ++ l). split; [eapply sl_dir; eauto|]. rewrite map_app. apply Permutation_app; auto.
Qed.

Lemma holds_rows t : forall p r, is_fdir t = true -> holds d t r ->
  exists l, tree_listing d p r l /\ Permutation (map entry_row l) (rows p t).
Proof.
  induction t as [b|cs IH] using ftree_rect'; intros p r Ht Hh; [discriminate|]. apply holds_dir_inv in Hh as (T & es & HD & HP & HF).
  (* a row function on entries *)
  assert (G : exists ys : list (dentry * list (str * str * option N)), map fst ys = es
     /\ map snd ys = map (fun c => rows (p ++ [47] ++ fst c) (snd c)) cs
     /\ forall y, In y ys -> (is_dir (fst y) = false /\ snd y = []) \/
        (is_dir (fst y) = true /\ exists l, tree_listing d (p ++ [47] ++ name_str (fst y)) (region_of (fst y)) l /\ Permutation (map entry_row l) (snd y))).
  { clear HD HP T Ht. induction HF as [|[n t] e cs es (E1 & E2 & E3) HF IHF].
    - exists []. cbn. ssplit; auto. tauto.
    - inversion IH as [|? ? I1 I2]; subst. destruct (IHF I2) as (ys & Y1 & Y2 & Y3). cbn [fst snd] in *.
      exists ((e, rows (p ++ [47] ++ n) t) :: ys). cbn [map fst snd]. ssplit; [f_equal; auto|f_equal; auto|].
      intros y [<-|Hy]; [|auto]. cbn [fst snd]. destruct t as [b|cs'].
      + left. auto.
      + right. split; auto. rewrite E1. apply I1; auto. }
  destruct G as (ys & Y1 & Y2 & Y3).
  assert (Hrows : Permutation (map (fun e => entry_row (p, e)) es) (map (fun c => (p, fst c, row_size (snd c))) cs)).
  { clear -HF. induction HF as [|[n t] e cs es (E1 & E2 & E3) HF IHF]; cbn [map]; auto. cbn [fst snd] in *.
    replace (entry_row (p, e)) with (p, n, row_size t); [constructor; auto|]. unfold entry_row. cbn [fst snd]. rewrite E1, E2.
    destruct t as [b|cs']; cbn; auto. inversion E3; subst. congruence. }
  assert (Hsub : exists l, sub_listing d p (inorder T) l /\ Permutation (map entry_row l) (concat (map snd ys))).
  { rewrite <- Y1 in HP. clear -HP Y3. remember (map fst ys) as es eqn:Ees.
    assert (HP' : exists ys', Permutation ys ys' /\ map fst ys' = inorder T).
    { subst es. symmetry in HP. destruct (Permutation_map_inv _ _ HP) as (ys' & E & Hp). exists ys'. auto. }
    destruct HP' as (ys' & Hp & E). rewrite <- E.
    assert (Y3' : forall y, In y ys' -> (is_dir (fst y) = false /\ snd y = []) \/
        (is_dir (fst y) = true /\ exists l, tree_listing d (p ++ [47] ++ name_str (fst y)) (region_of (fst y)) l /\ Permutation (map entry_row l) (snd y))).
    { intros y Hy. apply Y3. eapply Permutation_in; [symmetry; exact Hp|exact Hy]. }
    clear -Y3' Hp.
    assert (G : exists l, sub_listing d p (map fst ys') l /\ Permutation (map entry_row l) (concat (map snd ys'))).
    { clear Hp. induction ys' as [|y ys' IH]; [exists []; split; constructor|]. destruct IH as (l & H1 & H2); [intros y' Hy'; apply Y3'; right; auto|].
      cbn [map concat]. destruct (Y3' y (or_introl eq_refl)) as [(Ed & Ef)|(Ed & l0 & H3 & H4)].
      - exists l. split; [apply sl_file; auto|]. rewrite Ef. exact H2.
      - exists (l0 ++ l). split; [eapply sl_dir; eauto|]. rewrite map_app. apply Permutation_app; auto. }
    destruct G as (l & H1 & H2). exists l. split; auto. rewrite H2. symmetry. apply perm_concat. exact Hp. }
  destruct Hsub as (l & S1 & S2). exists (map (fun e => (p, e)) (inorder T) ++ l). split; [apply (tl_dir d p r T l); auto|].
  rewrite map_app. cbn [rows]. rewrite Y2 in S2. apply Permutation_app; [|exact S2].
  rewrite map_map. rewrite <- Hrows. symmetry. apply Permutation_map. exact HP.
Qed.
End Held.
