(** Packing to a growable file. *)
From Verif Require Import M_Base M_Util M_Layout M_Avl M_Sector M_Dirtab M_Read M_Img.
From Verif Require Import S_Avl S_Codec S_Table S_Read S_Img.
From Verif Require Import P_Base P_Codec P_Place P_Dirtab P_Table P_Find P_Map P_Tree P_Tabs P_Disk P_Plan P_Pack P_Run P_Bytes P_Image.
From Coq Require Import Init.Byte Permutation Sorted Lia.
Local Open Scope N_scope.

Definition sw (t : ftree) (s : step) : list (N * list byte) :=
  match s with SReport _ => [] | SWrite off b => [(off, b)] | SCopy p off _ => [(off, file_bytes t p)] end.
Definition se (s : step) : list event := match s with SReport e => [e] | _ => [] end.

Lemma exec_file (fs : fsys (list byte)) t steps : proper t -> copies fs t -> copies_ok t steps -> forall img evs,
  exec file_wdev fs steps (img, evs) = ((writes (flat_map (sw t) steps) img, evs ++ flat_map se steps), Ok tt).
Proof.
  intros HP Hc. induction steps as [|s steps IH]; intros Hok img evs.
  - cbn. rewrite app_nil_r. reflexivity.
  - inversion Hok as [|? ? Hs Hok']; subst. specialize (IH Hok'). cbn [exec flat_map]. rewrite writes_app, app_assoc. destruct s as [e|off b|p off size]; cbn [exec_step sw se].
    + unfold pbind at 1. unfold report. cbn [fst snd]. rewrite IH. reflexivity.
    + unfold pbind at 1. unfold pwrite. cbn. rewrite app_nil_r. apply IH.
    + destruct Hs as (b & Hb & ->).
      unfold pbind at 1. unfold pbind at 1. unfold pcopy. cbn [fst snd]. rewrite (Hc p b img off Hb). cbn [map_err pret].
      rewrite (file_bytes_at t HP p b Hb), app_nil_r. apply IH.
Qed.

Lemma flat_concat {A B} (f : A -> list B) l : flat_map f (concat l) = concat (map (flat_map f) l).
Proof. induction l as [|x l IH]; cbn; auto. rewrite flat_map_app, IH. reflexivity. Qed.

Lemma flat_reports_w t l : flat_map (sw t) (map SReport l) = [].
Proof. induction l; cbn; auto. Qed.
Lemma flat_reports_e l : flat_map se (map SReport l) = l.
Proof. induction l; cbn; f_equal; auto. Qed.

Lemma listing_writes t p listing : forall secs, flat_map (sw t) (fst (plan_listing p listing secs)) = map snd (concat (map (file_wl t p) listing)).
Proof.
  induction listing as [|e listing IH]; intros secs; cbn [plan_listing map concat]; auto. cbv zeta.
  unfold file_wl at 1. destruct (l_is_dir e).
  - specialize (IH (map_insert (from_base p (l_name e)) (l_sector e) secs)). destruct (plan_listing p listing _) as [ls r]. cbn. exact IH.
  - specialize (IH secs). destruct (plan_listing p listing secs) as [ls r]. cbn in *. f_equal. exact IH.
Qed.

Lemma steps_writes t pls rs : flat_map (sw t) (all_steps t pls rs) = map snd (wl t pls) ++ [(65536, desc_bytes rs)].
Proof.
  unfold all_steps. rewrite !flat_map_app, flat_reports_w. cbn [app flat_map sw]. f_equal.
  rewrite flat_concat. unfold wl. rewrite concat_map, !map_map. f_equal. apply map_ext. intros pl.
  unfold pl_steps, pl_wl. cbn [flat_map sw app map snd]. f_equal. apply listing_writes.
Qed.

Definition listing_events (p : path) (l : list listing_entry) : list event := map (fun e => EFileAdded (from_base p (l_name e)) (l_sector e)) l.
Definition pl_events (pl : placed) : list event := EDirAdded (pl_path pl) (pl_sector pl) :: listing_events (pl_path pl) (file_listing (pl_table pl)).

Lemma listing_evs p listing : forall secs, flat_map se (fst (plan_listing p listing secs)) = listing_events p listing.
Proof.
  induction listing as [|e listing IH]; intros secs; cbn [plan_listing]; auto. cbv zeta. destruct (l_is_dir e).
  - specialize (IH (map_insert (from_base p (l_name e)) (l_sector e) secs)). destruct (plan_listing p listing _) as [ls r]. cbn in *. f_equal. exact IH.
  - specialize (IH secs). destruct (plan_listing p listing secs) as [ls r]. cbn in *. f_equal. exact IH.
Qed.

Definition run_events (t : ftree) (pls : list placed) : list event := first_events t ++ concat (map pl_events pls).

Lemma steps_events t pls rs : flat_map se (all_steps t pls rs) = run_events t pls.
Proof.
  unfold all_steps, run_events. rewrite !flat_map_app, flat_reports_e. cbn [flat_map se app]. rewrite app_nil_r. f_equal.
  rewrite flat_concat, map_map. f_equal. apply map_ext. intros pl. unfold pl_steps, pl_events. cbn [flat_map se app]. f_equal. apply listing_evs.
Qed.

Lemma steps_copies m t pls rs : proper t -> laid m t pls rs -> copies_ok t (all_steps t pls rs).
Proof.
  intros HP HL. unfold all_steps. apply Forall_app; split; [apply first_ok|]. apply Forall_app; split; [|repeat constructor].
  apply Forall_forall. intros st H. apply in_concat in H as (l & H1 & H2). apply in_map_iff in H1 as (pl & <- & Hpl).
    destruct H2 as [<-|[<-|H2]]; [discriminate|exact I|]. apply plan_listing_copies in H2 as (e & He & [-> |(Hd & ->)]); [discriminate|]. cbn [step_ok].
    destruct (listing_child m t pls rs HL pl e Hpl He) as (s & x & Hc & Hi & Hsz & Hd' & Hk). rewrite Hd in Hd'. rewrite <- Hd' in Hk.
    destruct s as [b|cs]; [|discriminate]. exists b. split; [exact (at_path_snoc _ _ _ _ _ (pl_at m t pls rs HL pl Hpl) Hc)|].
    unfold item_of in Hi. cbn [fst snd] in Hi. apply bind_ok in Hi as (s2 & Hs2 & [= <-]). rewrite try_into_spec in Hs2.
    destruct (len b <? u32_modulus); [|discriminate]. injection Hs2 as <-. exact Hsz.
Qed.

(** ** Padding *)
Definition padding (n : N) : N := if 0 <? n mod 65536 then 65536 - n mod 65536 else 0.
Definition pad (img : list byte) : list byte := img ++ fill (padding (len img)) x00.

Lemma write_end img b : file_write img (len img) b = img ++ b.
Proof.
  destruct b as [|x b]; [cbn; rewrite app_nil_r; reflexivity|]. set (bb := x :: b). apply get_ext.
  - rewrite write_len, len_app. destruct (N.eqb_spec (len bb) 0); lia.
  - intros i Hi. rewrite write_get. rewrite write_len in Hi.
    destruct (N.leb_spec (len img) i); cbn [andb].
    + rewrite get_app_r by lia. destruct (N.ltb_spec i (len img + len bb)); auto. destruct (N.eqb_spec (len bb) 0); lia.
    + rewrite get_app_l by lia. reflexivity.
Qed.

Lemma pad_file img evs : pad_image file_wdev (img, evs) = ((pad img, evs), Ok tt).
Proof.
  unfold pad_image, pbind, M_Img.plen. cbn [file_wdev dev_len fst snd map_err]. unfold pad, padding.
  change (32 * 2048) with 65536. destruct (0 <? len img mod 65536).
  - unfold pwrite. cbn [file_wdev dev_write fst snd map_err]. rewrite write_end. reflexivity.
  - cbn. rewrite app_nil_r. reflexivity.
Qed.

Lemma padded_multiple img : len (pad img) mod 65536 = 0.
Proof. unfold pad, padding. rewrite len_app, len_fill. destruct (N.ltb_spec 0 (len img mod 65536)); lia. Qed.

Lemma file_dev_app img z o n b : file_dev img o n = Ok b -> file_dev (img ++ z) o n = Ok b.
Proof.
  unfold file_dev. destruct (n =? 0); auto. rewrite len_app. destruct (N.leb_spec (o + n) (len img)); [|discriminate].
  intros [= <-]. destruct (N.leb_spec (o + n) (len img + len z)); [|lia]. f_equal. apply get_ext.
  - rewrite !slice_len, len_app. lia.
  - intros i Hi. rewrite slice_len, len_app in Hi. rewrite !get_slice by lia. apply get_app_l. lia.
Qed.

(** ** The result of packing to an empty file *)
Definition final (t : ftree) (pls : list placed) (rs : N) : list byte := pad (body t pls rs).

Theorem pack_file m t : proper t -> small t -> is_fdir t = true ->
  (exists pls rs, laid m t pls rs /\ forall fs fuel evs, presents fs t -> copies fs t -> (length (dirs [] t) < fuel)%nat ->
     create_xdvdfs_image fuel m file_wdev fs ([], evs) = ((final t pls rs, evs ++ run_events t pls ++ [EFinishedPacking]), Ok tt))
  \/ (exists e img es, reason m t e /\ forall fs fuel evs, presents fs t -> copies fs t -> (length (dirs [] t) < fuel)%nat ->
        create_xdvdfs_image fuel m file_wdev fs ([], evs) = ((img, evs ++ es), Err (InvalidFileStructureError e))
        /\ ~ In EFinishedPacking es).
Proof.
  intros HP Hs Ht. destruct (pack_run m t HP Hs Ht) as (steps & o & Ho & Hrun). destruct Ho as [pls rs HL|steps e Hr Hc Hh].
  - left. exists pls, rs. split; auto. intros fs fuel evs Hp Hcp Hf. rewrite (Hrun _ _ _ _ _ _ Hp Hf). unfold pbind at 1.
    rewrite (exec_file fs t) by (auto; eapply steps_copies; eauto). rewrite steps_writes, steps_events. fold (body t pls rs).
    cbn [finish]. unfold pbind at 1. rewrite pad_file. unfold report. cbn [fst snd]. rewrite <- app_assoc. reflexivity.
  - right.
    exists e, (writes (flat_map (sw t) steps) []), (flat_map se steps). split; auto. intros fs fuel evs Hp Hcp Hf.
    rewrite (Hrun _ _ _ _ _ _ Hp Hf). unfold pbind at 1. rewrite (exec_file fs t) by auto. split; [reflexivity|].
    intros H. apply in_flat_map in H as (s & H1 & H2). unfold copies_ok in Hc. rewrite Forall_forall in Hc. specialize (Hc _ H1).
    destruct s; cbn in H2; try tauto. destruct H2 as [H2|[]]. apply Hc. exact H2.
Qed.
