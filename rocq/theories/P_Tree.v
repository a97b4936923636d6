(** Host trees, [dir_tree] and the tables of all directories. *)
From Verif Require Import M_Base M_Util M_Layout M_Avl M_Sector M_Dirtab M_Read M_Img.
From Verif Require Import S_Avl S_Codec S_Table S_Read S_Img.
From Verif Require Import P_Base P_Codec P_Place P_Dirtab P_Table P_Find P_Map.
From Coq Require Import Init.Byte Permutation Sorted Lia.
Local Open Scope N_scope.

Section FtreeInd.
Variable P : ftree -> Prop.
Hypothesis Hf : forall b, P (FFile b).
Hypothesis Hd : forall cs, Forall (fun c => P (snd c)) cs -> P (FDir cs).
Fixpoint ftree_rect' (t : ftree) : P t :=
  match t with
  | FFile b => Hf b
  | FDir cs => Hd cs ((fix go cs : Forall (fun c => P (snd c)) cs :=
                         match cs with [] => Forall_nil _ | c :: cs => Forall_cons c (ftree_rect' (snd c)) (go cs) end) cs)
  end.
End FtreeInd.

Lemma Forall2_length {A B} (R : A -> B -> Prop) l l' : Forall2 R l l' -> length l = length l'.
Proof. induction 1; cbn; congruence. Qed.

Lemma at_path_app t p t' q t'' : at_path t p t' -> at_path t' q t'' -> at_path t (p ++ q) t''.
Proof. induction 1; cbn; auto. intros H1. econstructor; eauto. Qed.

Lemma at_path_snoc t p cs n t' : at_path t p (FDir cs) -> In (n, t') cs -> at_path t (from_base p n) t'.
Proof. intros H1 H2. eapply at_path_app; eauto. econstructor; [exact H2|]. constructor. Qed.

Lemma every_dir_sub P t p t' : every_dir P t -> at_path t p t' -> every_dir P t'.
Proof. intros H H1 q cs H2. eapply H. eapply at_path_app; eauto. Qed.
Lemma every_file_sub P t p t' : every_file P t -> at_path t p t' -> every_file P t'.
Proof. intros H H1 q cs H2. eapply H. eapply at_path_app; eauto. Qed.

Lemma child_at cs n t : In (n, t) cs -> at_path (FDir cs) [n] t.
Proof. intros H. econstructor; [exact H|constructor]. Qed.

(** ** The directories in the order in which [dir_tree] finds them *)
Fixpoint dirs (p : path) (t : ftree) : list (path * list (str * ftree)) :=
  match t with
  | FFile _ => []
  | FDir cs => (p, cs) :: concat (rev (map (fun c => dirs (from_base p (fst c)) (snd c)) cs))
  end.

Lemma dirs_at p t q cs : In (q, cs) (dirs p t) <-> exists r, q = p ++ r /\ at_path t r (FDir cs).
Proof.
  revert p q cs. induction t as [b|cs0 IH] using ftree_rect'; intros p q cs; cbn.
  - split; [tauto|]. intros (r & _ & H). inversion H.
  - split.
    + intros [[= <- <-]|H].
      * exists []. rewrite app_nil_r. split; auto. constructor.
      * apply in_concat in H as (l & Hl & Hin). apply in_rev in Hl. apply in_map_iff in Hl as ([n t] & <- & Hc).
        rewrite Forall_forall in IH. apply (IH _ Hc) in Hin as (r & -> & Hr). cbn [fst snd] in *.
        exists (n :: r). unfold from_base. rewrite <- app_assoc. split; auto. econstructor; eauto.
    + intros (r & -> & H). inversion H as [|? n t r' ? Hc Hr]; subst.
      * left. rewrite app_nil_r. reflexivity.
      * right. apply in_concat. exists (dirs (from_base p n) t). split.
        -- apply -> in_rev. apply in_map_iff. exists (n, t). auto.
        -- rewrite Forall_forall in IH. apply (IH _ Hc). exists r'. unfold from_base. rewrite <- app_assoc. auto.
Qed.

Lemma dirs_prefix p t q : In q (map fst (dirs p t)) -> exists r, q = p ++ r.
Proof. intros H. apply in_map_iff in H as ([q' cs] & <- & H). apply dirs_at in H as (r & -> & _). exists r. reflexivity. Qed.

Lemma NoDup_concat_map {A B} (f : A -> list B) l : NoDup l -> (forall a, In a l -> NoDup (f a)) ->
  (forall a a' b, In a l -> In a' l -> In b (f a) -> In b (f a') -> a = a') -> NoDup (concat (map f l)).
Proof.
  induction l as [|a l IH]; cbn; intros Hn Hd Hx; [constructor|]. inversion Hn as [|? ? H1 H2]; subst.
  assert (Happ : forall (x y : list B), NoDup x -> NoDup y -> (forall b, In b x -> ~ In b y) -> NoDup (x ++ y)).
  { clear. induction x as [|b x IHx]; cbn; auto. intros y Hx Hy H. inversion Hx; subst. constructor.
    - rewrite in_app_iff. intros [?|?]; [auto|]. eapply H; eauto.
    - apply IHx; auto. }
  apply Happ; auto.
  - apply IH; auto. intros a1 a2 b ? ? ? ?. eapply Hx; eauto.
  - intros b Hb Hin. apply in_concat in Hin as (l' & Hl' & Hb'). apply in_map_iff in Hl' as (a' & <- & Ha').
    assert (a = a') by (eapply Hx; eauto). subst. auto.
Qed.

Lemma concat_rev_perm {A} (l : list (list A)) : Permutation (concat (rev l)) (concat l).
Proof.
  induction l as [|x l IH]; cbn; auto. rewrite concat_app. cbn. rewrite app_nil_r, IH. apply Permutation_app_comm.
Qed.

Lemma NoDup_of_fst {A B} (l : list (A * B)) : NoDup (map fst l) -> NoDup l.
Proof. apply NoDup_map_inv. Qed.

Lemma same_fst {A B} (l : list (A * B)) a b b' : NoDup (map fst l) -> In (a, b) l -> In (a, b') l -> b = b'.
Proof.
  induction l as [|[x y] l IH]; cbn; [tauto|]. intros Hn. inversion Hn as [|? ? H1 H2]; subst.
  intros [E3|H3] [E4|H4]; auto.
  - congruence.
  - injection E3 as -> ->. exfalso. apply H1. apply (in_map fst) in H4. exact H4.
  - injection E4 as -> ->. exfalso. apply H1. apply (in_map fst) in H3. exact H3.
Qed.

Lemma dirs_nodup t : proper t -> forall p, NoDup (map fst (dirs p t)).
Proof.
  induction t as [b|cs IH] using ftree_rect'; intros HP p; [constructor|].
  cbn [dirs map fst]. constructor.
  - intros H. apply in_map_iff in H as ([q cs'] & Hq & H). cbn in Hq. subst q.
    apply in_concat in H as (l & Hl & Hin). apply in_rev in Hl. apply in_map_iff in Hl as ([n t] & <- & Hc).
    apply dirs_at in Hin as (r & Hr & _). cbn in Hr. unfold from_base in Hr. rewrite <- app_assoc in Hr.
    rewrite <- (app_nil_r p) in Hr at 1. apply app_inv_head in Hr. discriminate.
  - rewrite concat_map, map_rev, map_map. eapply Permutation_NoDup; [symmetry; apply concat_rev_perm|].
    pose proof (HP [] cs (at_here _)) as Hn. apply NoDup_concat_map.
    + apply NoDup_of_fst. exact Hn.
    + intros [n t] Hc. cbn [fst snd]. rewrite Forall_forall in IH. apply (IH _ Hc).
      eapply every_dir_sub; [exact HP|]. apply (child_at _ _ _ Hc).
    + intros [n t] [n' t'] q Hc Hc' H H'. cbn [fst snd] in *.
      apply dirs_prefix in H as (r & ->). apply dirs_prefix in H' as (r' & Hr).
      unfold from_base in Hr. rewrite <- !app_assoc in Hr. apply app_inv_head in Hr. injection Hr as <- _.
      f_equal. eapply same_fst; eauto.
Qed.

(** ** [dir_tree] *)
Definition listing_at {D} (fs : fsys D) (p : path) : list fentry :=
  match read_dir fs p with Ok es => es | _ => [] end.
Definition found {D} (fs : fsys D) (ds : list (path * list (str * ftree))) : list (path * list fentry) :=
  map (fun x => (fst x, listing_at fs (fst x))) ds.
Definition discovered {D} (fs : fsys D) (ds : list (path * list (str * ftree))) : list event :=
  map (fun x => EDiscoveredDirectory (len (listing_at fs (fst x)))) ds.

Definition subpath (p : path) (c : str * ftree) : list path :=
  match snd c with FDir _ => [from_base p (fst c)] | FFile _ => [] end.

Lemma push_subdirs_eq p es cs st : Forall2 lists_as es cs ->
  push_subdirs p es st = concat (rev (map (subpath p) cs)) ++ st.
Proof.
  intros H. revert st. unfold push_subdirs.
  induction H as [|e [n t] es cs [H1 H2] H IH]; intros st; cbn [fold_left map rev]; auto.
  rewrite IH, concat_app, <- app_assoc. f_equal. cbn [concat subpath snd fst] in *. rewrite H1.
  destruct t as [b|cs']; cbn [subpath snd fst app].
  - destruct H2 as [-> _]. reflexivity.
  - rewrite H2. reflexivity.
Qed.


Lemma loop_step {D} (fs : fsys D) fuel p st out (d : D) evs es :
  read_dir fs p = Ok es ->
  dir_tree_loop (S fuel) fs (p :: st) out (d, evs)
  = dir_tree_loop fuel fs (push_subdirs p es st) (out ++ [(p, es)]) (d, evs ++ [EDiscoveredDirectory (len es)]).
Proof. intros H. cbn [dir_tree_loop]. rewrite H. reflexivity. Qed.

Definition shows {D} (fs : fsys D) (p : path) (t : ftree) : Prop :=
  forall r cs, at_path t r (FDir cs) -> exists es, read_dir fs (p ++ r) = Ok es /\ Forall2 lists_as es cs.

Lemma shows_child {D} (fs : fsys D) p cs n t : shows fs p (FDir cs) -> In (n, t) cs -> shows fs (from_base p n) t.
Proof.
  intros H Hc r cs' Hr. destruct (H (n :: r) cs') as (es & H1 & H2); [econstructor; eauto|].
  exists es. unfold from_base. rewrite <- app_assoc. auto.
Qed.

Definition one (p : path) (t : ftree) : list path := match t with FDir _ => [p] | FFile _ => [] end.

Lemma dir_loop_run {D} (fs : fsys D) t : forall p fuel st out (d : D) evs,
  shows fs p t -> 
  dir_tree_loop (length (dirs p t) + fuel) fs (one p t ++ st) out (d, evs)
  = dir_tree_loop fuel fs st (out ++ found fs (dirs p t)) (d, evs ++ discovered fs (dirs p t)).
Proof.
  induction t as [b|cs IH] using ftree_rect'; intros p fuel st out d evs Hs.
  - cbn. rewrite !app_nil_r. reflexivity.
  - destruct (Hs [] cs (at_here _)) as (es & Hes & Hl). rewrite app_nil_r in Hes.
    cbn [dirs length plus one app]. rewrite (loop_step _ _ _ _ _ _ _ _ Hes), (push_subdirs_eq _ _ _ _ Hl).
    assert (Hla : listing_at fs p = es) by (unfold listing_at; rewrite Hes; reflexivity).
    cbn [found discovered map fst]. rewrite Hla.
    assert (G : forall cs0 fuel st out evs, (forall c, In c cs0 -> In c cs) ->
       dir_tree_loop (length (concat (rev (map (fun c => dirs (from_base p (fst c)) (snd c)) cs0))) + fuel) fs
          (concat (rev (map (subpath p) cs0)) ++ st) out (d, evs)
       = dir_tree_loop fuel fs st (out ++ found fs (concat (rev (map (fun c => dirs (from_base p (fst c)) (snd c)) cs0))))
            (d, evs ++ discovered fs (concat (rev (map (fun c => dirs (from_base p (fst c)) (snd c)) cs0))))).
    { clear -IH Hs. induction cs0 as [|[n t] cs0 IH0] using rev_ind; intros fuel st out evs Hin.
      - cbn. rewrite !app_nil_r. reflexivity.
      - rewrite !map_app, !rev_app_distr. cbn [map rev app concat fst snd].
        assert (Hc : In (n, t) cs) by (apply Hin; apply in_or_app; right; left; auto).
        rewrite <- !app_assoc, app_length, <- Nat.add_assoc.
        replace (subpath p (n, t)) with (one (from_base p n) t) by (destruct t; reflexivity).
        rewrite Forall_forall in IH. rewrite (IH _ Hc); [|cbn [snd]; eapply shows_child; eauto].
        rewrite IH0 by (intros c Hc'; apply Hin; apply in_or_app; auto).
        unfold found, discovered. rewrite !map_app, <- !app_assoc. reflexivity. }
    rewrite G by auto. cbn [app]. rewrite <- !app_assoc. reflexivity.
Qed.

Lemma dir_tree_ok {D} (fs : fsys D) t fuel (d : D) evs : is_fdir t = true -> presents fs t ->
  (length (dirs [] t) < fuel)%nat ->
  dir_tree fuel fs (d, evs) = ((d, evs ++ discovered fs (dirs [] t)), Ok (found fs (dirs [] t))).
Proof.
  intros Ht Hp Hf. unfold dir_tree.
  pose proof (dir_loop_run fs t [] (fuel - length (dirs [] t)) [] [] d evs Hp) as H.
  rewrite Nat.add_comm, Nat.sub_add in H by lia.
  destruct t as [|cs]; [discriminate|]. cbn [one app] in H. etransitivity; [exact H|].
  destruct (fuel - length (dirs [] (FDir cs)))%nat eqn:E; reflexivity.
Qed.
