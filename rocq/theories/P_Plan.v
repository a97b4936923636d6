(** The writing part of [create_xdvdfs_image] as a sequence of steps that does not
    depend on the device. *)
From Verif Require Import M_Base M_Util M_Layout M_Avl M_Sector M_Dirtab M_Read M_Img.
From Verif Require Import S_Avl S_Codec S_Table S_Read S_Img.
From Verif Require Import P_Base P_Codec P_Place P_Dirtab P_Table P_Find P_Map P_Tree P_Tabs P_Disk.
From Coq Require Import Init.Byte Permutation Sorted Lia.
Local Open Scope N_scope.

Inductive step := SReport (e : event) | SWrite (off : N) (b : list byte) | SCopy (p : path) (off size : N).

Definition exec_step {D} (W : wdev D) (fs : fsys D) (s : step) : prog D unit :=
  match s with
  | SReport e => report e
  | SWrite off b => pwrite W off b
  | SCopy p off size => do _ <- pcopy fs p off size; pret tt
  end.
Fixpoint exec {D} (W : wdev D) (fs : fsys D) (l : list step) : prog D unit :=
  match l with [] => pret tt | s :: l => do _ <- exec_step W fs s; exec W fs l end.

Fixpoint plan_listing (p : path) (listing : list listing_entry) (secs : dmap N) : list step * dmap N :=
  match listing with
  | [] => ([], secs)
  | e :: listing =>
      let fp := from_base p (l_name e) in
      if l_is_dir e
      then let (s, r) := plan_listing p listing (map_insert fp (l_sector e) secs) in (SReport (EFileAdded fp (l_sector e)) :: s, r)
      else let (s, r) := plan_listing p listing secs in
           (SReport (EFileAdded fp (l_sector e)) :: SCopy fp (l_sector e * SECTOR_SIZE) (l_size e) :: s, r)
  end.

Fixpoint plan (m : build) (tables : dmap writer) (nf : N) (secs : dmap N) : list step * res werr N :=
  match tables with
  | [] => ([], Ok nf)
  | (p, w) :: tables =>
      match map_get p secs with
      | None => ([], Panic PUnwrap)
      | Some sector =>
          match disk_repr m w nf with
          | Ok (t, nf) =>
              let (ls, secs) := plan_listing p (file_listing t) secs in
              let (s, r) := plan m tables nf secs in
              (SReport (EDirAdded p sector) :: SWrite (sector * SECTOR_SIZE) (entry_table t) :: ls ++ s, r)
          | Err e => ([], Err (InvalidFileStructureError e))
          | Panic k => ([], Panic k)
          | OutOfFuel => ([], OutOfFuel)
          end
      end
  end.

(** Equality of programs. *)
Definition peq {D A} (a b : prog D A) : Prop := forall s, a s = b s.

Lemma pbind_assoc {D A B C} (x : prog D A) (k : A -> prog D B) (h : B -> prog D C) :
  peq (pbind (pbind x k) h) (pbind x (fun a => pbind (k a) h)).
Proof. intros s. unfold pbind. destruct (x s) as [s' [a|e|p|]]; auto. Qed.
Lemma pbind_ext {D A B} (x : prog D A) (k h : A -> prog D B) : (forall a, peq (k a) (h a)) -> peq (pbind x k) (pbind x h).
Proof. intros H s. unfold pbind. destruct (x s) as [s' [a|e|p|]]; auto. apply H. Qed.
Lemma pbind_ext_l {D A B} (x y : prog D A) (k : A -> prog D B) : peq x y -> peq (pbind x k) (pbind y k).
Proof. intros H s. unfold pbind. rewrite H. reflexivity. Qed.
Lemma peq_trans {D A} (a b c : prog D A) : peq a b -> peq b c -> peq a c.
Proof. intros H1 H2 s. rewrite H1. apply H2. Qed.
Lemma peq_sym {D A} (a b : prog D A) : peq a b -> peq b a.
Proof. intros H s. symmetry. apply H. Qed.
Lemma peq_refl {D A} (a : prog D A) : peq a a.
Proof. intros s. reflexivity. Qed.

Lemma exec_app {D} (W : wdev D) fs a b : peq (exec W fs (a ++ b)) (do _ <- exec W fs a; exec W fs b).
Proof.
  induction a as [|s a IH]; cbn [app exec].
  - intros s. reflexivity.
  - eapply peq_trans; [apply pbind_ext; intros ?; exact IH|]. apply peq_sym, pbind_assoc.
Qed.

Lemma add_listing_plan {D} (W : wdev D) (fs : fsys D) p listing : forall secs,
  peq (add_listing fs p listing secs)
      (do _ <- exec W fs (fst (plan_listing p listing secs)); pret (snd (plan_listing p listing secs))).
Proof.
  induction listing as [|e listing IH]; intros secs; [intros s; reflexivity|].
  cbn [add_listing plan_listing]. cbv zeta. destruct (l_is_dir e).
  - specialize (IH (map_insert (from_base p (l_name e)) (l_sector e) secs)).
    destruct (plan_listing p listing _) as [s r]. cbn [fst snd exec exec_step] in *.
    eapply peq_trans; [apply pbind_ext; intros ?; exact IH|]. apply peq_sym, pbind_assoc.
  - specialize (IH secs). destruct (plan_listing p listing secs) as [s r]. cbn [fst snd exec exec_step] in *.
    eapply peq_trans; [apply pbind_ext; intros ?; apply pbind_ext; intros ?; exact IH|].
    intros st. unfold pbind, pret, report. destruct (pcopy _ _ _ _ _) as [st' [a|x|x|]]; reflexivity.
Qed.

Lemma add_tables_plan {D} m (W : wdev D) (fs : fsys D) tables : forall nf secs,
  peq (add_tables m W fs tables nf secs)
      (do _ <- exec W fs (fst (plan m tables nf secs)); plift (snd (plan m tables nf secs))).
Proof.
  induction tables as [|[p w] tables IH]; intros nf secs; [intros s; reflexivity|].
  cbn [add_tables plan]. destruct (map_get p secs) as [sector|]; [|intros s; reflexivity].
  cbn [unwrap]. destruct (disk_repr m w nf) as [[t nf']|e|k|]; try (intros s; reflexivity).
  pose proof (add_listing_plan W fs p (file_listing t) secs) as Hl.
  destruct (plan_listing p (file_listing t) secs) as [ls secs'] eqn:El. cbn [fst snd] in Hl.
  specialize (IH nf' secs'). destruct (plan m tables nf' secs') as [s r]. cbn [fst snd] in *.
  cbn [exec exec_step map_err].
  eapply peq_trans with (b := do _ <- report (EDirAdded p sector); do _ <- pwrite W (sector * SECTOR_SIZE) (entry_table t);
      do secs <- add_listing fs p (file_listing t) secs; add_tables m W fs tables nf' secs); [intros st; reflexivity|].
  eapply peq_trans; [|apply peq_sym, pbind_assoc]. apply pbind_ext; intros ?.
  eapply peq_trans; [|apply peq_sym, pbind_assoc]. apply pbind_ext; intros ?.
  eapply peq_trans; [apply pbind_ext_l; exact Hl|].
  eapply peq_trans; [apply pbind_assoc|].
  eapply peq_trans; [|apply pbind_ext_l, peq_sym, exec_app].
  eapply peq_trans; [|apply peq_sym, pbind_assoc]. apply pbind_ext; intros ?.
  intros st. unfold pbind at 1. cbn. apply IH.
Qed.

(** ** Successful plans *)
Record placed := mkPlaced { pl_path : path; pl_writer : writer; pl_sector : N; pl_nf : N; pl_table : disk_table }.

Definition pl_steps (pl : placed) : list step :=
  SReport (EDirAdded (pl_path pl) (pl_sector pl)) :: SWrite (pl_sector pl * SECTOR_SIZE) (entry_table (pl_table pl))
  :: fst (plan_listing (pl_path pl) (file_listing (pl_table pl)) []).

(** All entries placed, with the path of their directory. *)
Definition pl_entries (pl : placed) : list (path * listing_entry) := map (pair (pl_path pl)) (file_listing (pl_table pl)).
Definition all_entries (pls : list placed) : list (path * listing_entry) := concat (map pl_entries pls).

Inductive packed (m : build) : dmap writer -> N -> dmap N -> list placed -> N -> Prop :=
| packed_nil nf secs : packed m [] nf secs [] nf
| packed_cons q w tl nf secs sec t nf1 pls nf2 :
    map_get q secs = Some sec -> disk_repr m w nf = Ok (t, nf1) ->
    packed m tl nf1 (snd (plan_listing q (file_listing t) secs)) pls nf2 ->
    packed m ((q, w) :: tl) nf secs (mkPlaced q w sec nf t :: pls) nf2.

Lemma plan_listing_steps p listing : forall secs secs', fst (plan_listing p listing secs) = fst (plan_listing p listing secs').
Proof.
  induction listing as [|e listing IH]; intros secs secs'; cbn [plan_listing]; cbv zeta; auto.
  destruct (l_is_dir e).
  - specialize (IH (map_insert (from_base p (l_name e)) (l_sector e) secs) (map_insert (from_base p (l_name e)) (l_sector e) secs')).
    destruct (plan_listing p listing (map_insert _ _ secs)), (plan_listing p listing (map_insert _ _ secs')). cbn in *. congruence.
  - specialize (IH secs secs'). destruct (plan_listing p listing secs), (plan_listing p listing secs'). cbn in *. congruence.
Qed.

Lemma plan_packed m tl nf secs steps nf' :
  plan m tl nf secs = (steps, Ok nf') <-> exists pls, packed m tl nf secs pls nf' /\ steps = concat (map pl_steps pls).
Proof.
  revert nf secs steps. induction tl as [|[q w] tl IH]; intros nf secs steps; cbn [plan].
  - split.
    + intros [= <- <-]. exists []. split; [constructor|reflexivity].
    + intros (pls & H & ->). inversion H; subst. reflexivity.
  - split.
    + destruct (map_get q secs) as [sec|] eqn:E1; [|discriminate]. destruct (disk_repr m w nf) as [[t nf1]|e|k|] eqn:E2; try discriminate.
      pose proof (plan_listing_steps q (file_listing t) secs []) as Hst.
      destruct (plan_listing q (file_listing t) secs) as [ls secs'] eqn:E3. destruct (plan m tl nf1 secs') as [s r] eqn:E4.
      intros [= <- ->]. apply IH in E4 as (pls & Hp & ->). exists (mkPlaced q w sec nf t :: pls). split.
      * econstructor; eauto. rewrite E3. exact Hp.
      * cbn [map concat pl_steps pl_path pl_sector pl_table]. cbn [fst] in Hst. rewrite Hst. reflexivity.
    + intros (pls & H & ->). inversion H as [|? ? ? ? ? sec t nf1 pls' ? H1 H2 H3]; subst. rewrite H1, H2.
      pose proof (plan_listing_steps q (file_listing t) secs []) as Hst.
      destruct (plan_listing q (file_listing t) secs) as [ls secs'] eqn:E3. cbn [snd] in H3.
      assert (E4 : plan m tl nf1 secs' = (concat (map pl_steps pls'), Ok nf')) by (apply IH; eauto).
      rewrite E4. cbn [map concat pl_steps pl_path pl_sector pl_table]. cbn [fst] in Hst. rewrite Hst. reflexivity.
Qed.

Lemma plan_listing_get p listing : forall secs q s, map_get q (snd (plan_listing p listing secs)) = Some s ->
  map_get q secs = Some s \/ exists e, In e listing /\ l_is_dir e = true /\ q = from_base p (l_name e) /\ l_sector e = s.
Proof.
  induction listing as [|e listing IH]; intros secs q s; cbn [plan_listing snd]; auto. cbv zeta.
  destruct (l_is_dir e) eqn:Ed.
  - specialize (IH (map_insert (from_base p (l_name e)) (l_sector e) secs) q s).
    destruct (plan_listing p listing _) as [ls r]. cbn [snd] in *. intros H. destruct (IH H) as [H1|(e' & H1 & H2)].
    + destruct (path_eq_dec q (from_base p (l_name e))) as [->|Hne].
      * rewrite get_insert_same in H1. injection H1 as <-. right. exists e. cbn. auto.
      * rewrite get_insert_other in H1 by auto. auto.
    + right. exists e'. cbn. auto.
  - specialize (IH secs q s). destruct (plan_listing p listing secs) as [ls r]. cbn [snd] in *. intros H.
    destruct (IH H) as [H1|(e' & H1 & H2)]; auto. right. exists e'. cbn. auto.
Qed.

Lemma plan_listing_has p listing : forall secs q, (exists s, map_get q secs = Some s) \/ (exists e, In e listing /\ l_is_dir e = true /\ q = from_base p (l_name e)) ->
  exists s, map_get q (snd (plan_listing p listing secs)) = Some s.
Proof.
  induction listing as [|e listing IH]; intros secs q; cbn [plan_listing snd].
  - intros [H|(e & [] & _)]; auto.
  - cbv zeta. intros H. destruct (l_is_dir e) eqn:Ed.
    + specialize (IH (map_insert (from_base p (l_name e)) (l_sector e) secs) q).
      destruct (plan_listing p listing _) as [ls r]. cbn [snd] in *. apply IH.
      destruct (path_eq_dec q (from_base p (l_name e))) as [->|Hne].
      * left. exists (l_sector e). apply get_insert_same.
      * destruct H as [(s & H)|(e' & [<-|H] & H2 & H3)]; [left; exists s; rewrite get_insert_other; auto|congruence|right; eauto].
    + specialize (IH secs q). destruct (plan_listing p listing secs) as [ls r]. cbn [snd] in *. apply IH.
      destruct H as [H|(e' & [<-|H] & H2 & H3)]; [auto|congruence|right; eauto].
Qed.

(** Where the sector of a directory comes from. *)
Lemma packed_sector m tl nf secs pls nf' : packed m tl nf secs pls nf' -> forall pl, In pl pls ->
  map_get (pl_path pl) secs = Some (pl_sector pl)
  \/ exists p e, In (p, e) (all_entries pls) /\ l_is_dir e = true /\ pl_path pl = from_base p (l_name e) /\ l_sector e = pl_sector pl.
Proof.
  induction 1 as [|q w tl nf secs sec t nf1 pls nf2 H1 H2 H3 IH]; intros pl Hin; [destruct Hin|].
  destruct Hin as [<-|Hin]; [left; exact H1|].
  destruct (IH pl Hin) as [Hg|(p & e & Ha & Hb)].
  - apply plan_listing_get in Hg as [Hg|(e & Ha & Hb & Hc & Hd)]; auto.
    right. exists q, e. ssplit; auto. unfold all_entries. cbn [map concat]. apply in_or_app. left.
    unfold pl_entries. cbn [pl_path pl_table]. apply in_map. exact Ha.
  - right. exists p, e. split; auto. unfold all_entries. cbn [map concat]. apply in_or_app. right. exact Ha.
Qed.

Lemma packed_paths m tl nf secs pls nf' : packed m tl nf secs pls nf' -> map (fun pl => (pl_path pl, pl_writer pl)) pls = tl.
Proof. induction 1; cbn; congruence. Qed.

(** Files copied by a listing. *)
Definition step_ok (t : ftree) (s : step) : Prop :=
  match s with
  | SReport e => e <> EFinishedPacking
  | SWrite _ _ => True
  | SCopy p _ size => exists b, at_path t p (FFile b) /\ size = len b
  end.
Definition copies_ok (t : ftree) (steps : list step) : Prop := Forall (step_ok t) steps.

Lemma plan_listing_copies p listing : forall secs s, In s (fst (plan_listing p listing secs)) ->
  exists e, In e listing /\ (s = SReport (EFileAdded (from_base p (l_name e)) (l_sector e))
     \/ l_is_dir e = false /\ s = SCopy (from_base p (l_name e)) (l_sector e * SECTOR_SIZE) (l_size e)).
Proof.
  induction listing as [|e listing IH]; intros secs s; cbn [plan_listing]; [intros []|]. cbv zeta.
  destruct (l_is_dir e) eqn:Ed.
  - specialize (IH (map_insert (from_base p (l_name e)) (l_sector e) secs)). destruct (plan_listing p listing _) as [ls r]. cbn [fst] in *.
    intros [H|H]; [exists e; cbn; auto|]. destruct (IH _ H) as (e' & ? & ?). exists e'. cbn. auto.
  - specialize (IH secs). destruct (plan_listing p listing secs) as [ls r]. cbn [fst] in *.
    intros [H|[H|H]]; [exists e; cbn; auto|exists e; cbn; auto|].
    destruct (IH _ H) as (e' & ? & ?). exists e'. cbn. auto.
Qed.
