(** Proofs about names that cannot lead out of the destination (C47). *)
From Verif Require Import M_Base M_Util M_Layout M_Read M_Img M_Cli M_Host M_Unpack S_Codec S_Read S_Img S_Check S_Cli S_Unpack S_Dotdot.
From Verif Require Import P_Base P_Find P_Src P_Check P_Cli P_Mono P_Host P_Unpack.
From Coq Require Import Init.Byte Lia.
Local Open Scope N_scope.

Lemma single_contained n : ~ In 47 n -> contained n.
Proof.
  intros H. destruct (list_eq_dec N.eq_dec n [46; 46]) as [->|Hn]; [right; reflexivity|left]. split.
  - intros n' ->. apply H. left. reflexivity.
  - intros Hi. unfold pcomps in Hi. rewrite split_plain in Hi by exact H. cbn [filter] in Hi. destruct (negb _); [destruct Hi as [Hi|[]]; auto|destruct Hi].
Qed.

Lemma dotdot_dir a : dirlike (pjoin a [46; 46]) = true.
Proof. apply (dirlike_pjoin a [46; 46]). reflexivity. Qed.
Lemma split_last_snoc l x : split_last (l ++ [x]) = Some (l, x).
Proof.
  induction l as [|a l IH]; [reflexivity|]. change ((a :: l) ++ [x]) with (a :: (l ++ [x])). destruct (l ++ [x]) as [|b r] eqn:E; [destruct l; discriminate|].
  cbn [split_last] in *. rewrite IH. reflexivity.
Qed.
Lemma dotdot_mkdir cwd a w : fst (create_dir cwd (pjoin a [46; 46]) w) = w /\ snd (create_dir cwd (pjoin a [46; 46]) w) <> Ok tt.
Proof.
  unfold create_dir. destruct (pjoin a [46; 46]) as [|c s] eqn:E; [split; [reflexivity|discriminate]|]. rewrite <- E.
  unfold mkdir. rewrite pcomps_pjoin by reflexivity. destruct (has_nul _); [split; [reflexivity|discriminate]|].
  change (pcomps [46; 46]) with [[46; 46]]. unfold hlocate. rewrite split_last_snoc. change (is_dotdot [46; 46]) with true.
  destruct (hwalk _ _ _); cbn [bind]; split; try reflexivity; discriminate.
Qed.
Lemma dotdot_open cwd a w : fst (open_trunc cwd (pjoin a [46; 46]) w) = w /\ forall p, snd (open_trunc cwd (pjoin a [46; 46]) w) <> Ok p.
Proof.
  unfold open_trunc. rewrite dotdot_dir. destruct (has_nul _); [split; [reflexivity|discriminate]|]. destruct (pjoin a [46; 46]); split; try reflexivity; discriminate.
Qed.

Lemma loop_cons cwd file base dest x tree w :
  copyout_loop cwd file base dest (x :: tree) w = hbind (copyout_loop cwd file base dest [x]) (fun _ => copyout_loop cwd file base dest tree) w.
Proof.
  destruct x as [dir e]. cbn [copyout_loop]. cbv zeta. unfold hbind. destruct (create_dir_all _ _ w) as [w1 [u|y|y|]]; try reflexivity.
  match goal with |- context [if ?b then create_dir ?x1 ?x2 else ?k] => destruct ((if b then create_dir x1 x2 else k) w1) as [w2 [u2|y|y|]] end; reflexivity.
Qed.

(** A single entry called "..": only directories on the way are created, and the run
    ends there. *)
Lemma dotdot_entry cwd file base dest dir e w : no_dotdot dest -> no_dotdot dir -> name_str e = [46; 46] -> d_namelen (d_dirent (e_node e)) <> 0 ->
  stays_below (place cwd dest) (w_fs w) (w_fs (fst (copyout_loop cwd file base dest [(dir, e)] w)))
  /\ snd (copyout_loop cwd file base dest [(dir, e)] w) <> Ok tt.
Proof.
  intros Hd D1 En Hl. cbn [copyout_loop]. cbv zeta. set (dirname := pjoin dest (trim_start dir)). rewrite En.
  assert (C1 : pcomps dirname = pcomps dest ++ pcomps dir) by (unfold dirname; rewrite pcomps_pjoin, trim_comps by apply trim_relative; reflexivity).
  assert (S1 : hstart cwd dirname = hstart cwd dest) by (apply hstart_pjoin, trim_relative).
  assert (K1 : no_dotdot dirname) by (unfold no_dotdot; rewrite C1, in_app_iff; intros [Hi|Hi]; auto).
  pose proof (create_dir_all_paved cwd dirname w K1) as P. rewrite C1, S1 in P. apply paved_stays in P.
  assert (G : forall w1, fst ((if is_directory (d_dirent (e_node e)) then create_dir cwd (pjoin dirname [46; 46])
             else if d_namelen (d_dirent (e_node e)) =? 0 then hret tt
             else copy_file cwd file base (pjoin dirname [46; 46]) (d_region (d_dirent (e_node e)))) w1) = w1
     /\ snd ((if is_directory (d_dirent (e_node e)) then create_dir cwd (pjoin dirname [46; 46])
             else if d_namelen (d_dirent (e_node e)) =? 0 then hret tt
             else copy_file cwd file base (pjoin dirname [46; 46]) (d_region (d_dirent (e_node e)))) w1) <> Ok tt).
  { intros w1. destruct (is_directory _); [apply dotdot_mkdir|]. apply N.eqb_neq in Hl. rewrite Hl. unfold copy_file, hbind.
    destruct (dotdot_open cwd dirname w1) as (O1 & O2). destruct (open_trunc cwd (pjoin dirname [46; 46]) w1) as [w2 [p|y|y|]]; cbn [fst snd] in *; [destruct (O2 p eq_refl)|split; [exact O1|discriminate]..]. }
  unfold hbind. destruct (create_dir_all cwd dirname w) as [w1 [u|y|y|]]; try (split; [exact P|discriminate]).
  destruct (G w1) as (G1 & G2). clear G. match type of G1 with fst ?z = _ => destruct z as [w2 [u2|y|y|]] end; cbn [fst snd] in *; subst;
    [destruct u2; destruct (G2 eq_refl)|split; [exact P|discriminate]..].
Qed.

Lemma named e : name_str e <> [] -> d_namelen (d_dirent (e_node e)) <> 0.
Proof. intros H E. apply H. unfold name_str, name_slice. rewrite E. reflexivity. Qed.

Lemma contained_stays cwd file base dest : no_dotdot dest -> forall tree before, parents_first (before ++ tree) ->
  Forall (fun x => contained (name_str (snd x))) tree ->
  Forall (fun x => no_dotdot (fst x) /\ harmless (name_str (snd x))) before ->
  forall w, stays_below (place cwd dest) (w_fs w) (w_fs (fst (copyout_loop cwd file base dest tree w))).
Proof.
  intros Hd. induction tree as [|[dir e] tree IH]; intros before HO HN HB w; [apply stays_refl|].
  inversion HN as [|? ? N1 N2]; subst. cbn [snd] in *.
  assert (D1 : no_dotdot dir).
  { destruct (HO before (dir, e) tree eq_refl) as [E0|(p' & e' & Hin & _ & E0)]; cbn [fst] in E0; rewrite E0; [intros []|].
    eapply Forall_forall in HB; [|exact Hin]. destruct HB as (H1 & _ & H2). cbn [fst snd] in *. unfold no_dotdot in *. cbn [app]. rewrite pcomps_app, in_app_iff. intros [Hi|Hi]; auto. }
  rewrite loop_cons. destruct N1 as [N1|N1].
  - apply hbind_stays.
    + apply copyout_stays; auto.
    + intros _ w1 _. apply (IH (before ++ [(dir, e)])); auto; [rewrite <- app_assoc; exact HO|]. apply Forall_app. split; auto.
  - destruct (dotdot_entry cwd file base dest dir e w Hd D1 N1) as (G1 & G2); [apply named; rewrite N1; discriminate|].
    unfold hbind. destruct (copyout_loop cwd file base dest [(dir, e)] w) as [w1 [u|y|y|]]; cbn [fst snd] in *; auto. destruct u. destruct (G2 eq_refl).
Qed.

Lemma c47_contained fuel cwd image_path file dest w : no_dotdot dest -> lists_names contained fuel file ->
  stays_below (place cwd dest) (w_fs w) (w_fs (fst (cmd_unpack fuel cwd image_path file (Some dest) w))).
Proof.
  intros Hd HN. unfold cmd_unpack, unpack_target, uread. destruct (offset_wrapper_new (file_dev file)) as [base|e|e|] eqn:Eb; try apply stays_refl.
  destruct (read_volume (offset_dev (file_dev file) base)) as [v|e|e|] eqn:Ev; try apply stays_refl.
  unfold copyout_directory, uread. destruct (file_tree fuel (offset_dev (file_dev file) base) (v_root v)) as [tree|e|e|] eqn:E; try apply stays_refl.
  unfold uhost. cbn [fst]. apply (contained_stays cwd file base dest Hd tree []).
  - eapply file_tree_order. exact E.
  - apply (HN (offset_dev (file_dev file) base) v tree); auto. unfold open_image. rewrite Eb. reflexivity.
  - constructor.
Qed.
Lemma lists_image (P : str -> Prop) fuel file t : is_image file t -> every_dir (fun cs => forall n, In n (map fst cs) -> P n) t -> lists_names P fuel file.
Proof.
  intros (d & r & Ho & (v & Hv & ->) & Ht & HC) HH d' v' tree Ho' Hv' Et. rewrite Ho in Ho'. injection Ho' as <-. rewrite Hv in Hv'. injection Hv' as <-.
  destruct (unpack_list d t (v_root v) (image_lawful _ _ Ho) Ht HC) as (out & ns & (n & O) & (_ & HE) & HF).
  pose proof (file_tree_mono _ _ (dle_refl d) fuel (Nat.max n fuel) _ _ ltac:(lia) Et) as M. rewrite O in M by lia. injection M as <-.
  assert (HI : forall p t', In (p, t') ns -> at_path t p t') by (intros p t' Hi; apply HE; exact Hi). clear -HF HI HH.
  induction HF as [|[dir e] [p t'] out ns (q & E1 & E2 & E3 & E4) HF IH]; constructor; [|apply IH; intros p' t'' Hi; apply HI; right; exact Hi]. cbn [fst snd] in *.
  specialize (HI p t' (or_introl eq_refl)). subst p. clear -HI HH. revert t HI HH. induction q as [|a q IHq]; intros t HI HH; inversion HI as [|cs ? t1 ? ? Hin Hat]; subst.
  - apply (HH [] cs (at_here _)). apply (in_map fst) in Hin. exact Hin.
  - apply (IHq t1); auto. intros p cs' Hp. apply (HH (a :: p)). eapply at_child; eauto.
Qed.
Lemma c47_slashless fuel cwd image_path file dest t w : no_dotdot dest -> is_image file t ->
  every_dir (fun cs => forall n, In n (map fst cs) -> ~ In 47 n) t ->
  stays_below (place cwd dest) (w_fs w) (w_fs (fst (cmd_unpack fuel cwd image_path file (Some dest) w))).
Proof.
  intros Hd HI HU. apply c47_contained; auto. eapply lists_image; [exact HI|]. intros p cs Hp n Hn. apply single_contained. exact (HU p cs Hp n Hn).
Qed.
