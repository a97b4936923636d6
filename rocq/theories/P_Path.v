(** Proofs about path syntax. *)
From Verif Require Import M_Base M_Util M_Layout M_Read S_Avl S_Codec S_Read P_Base.
Local Open Scope N_scope.

Lemma split_nonempty s : split_slash s <> [].
Proof. destruct s as [|c s]; cbn; [congruence|]. destruct (c =? SLASH); [congruence|]. destruct (split_slash s); congruence. Qed.

Lemma join_cons s segs : segs <> [] -> join (s :: segs) = s ++ 47 :: join segs.
Proof. destruct segs; [congruence|reflexivity]. Qed.

Lemma join_cons_char c s segs : join ((c :: s) :: segs) = c :: join (s :: segs).
Proof. destruct segs; reflexivity. Qed.

Lemma split_join s : join (split_slash s) = s /\ Forall no_slash (split_slash s).
Proof.
  induction s as [|c s (IH1 & IH2)]; cbn [split_slash].
  - split; auto. constructor; auto. intros [].
  - pose proof (split_nonempty s) as HN. destruct (N.eqb_spec c SLASH) as [->|Hc].
    + rewrite join_cons by auto. rewrite IH1. split; auto. constructor; auto. intros [].
    + destruct (split_slash s) as [|p ps]; [congruence|]. split; [rewrite join_cons_char; f_equal; exact IH1|].
      inversion IH2; subst. constructor; auto. intros [H|H]; auto. 
Qed.

Lemma split_of_join segs : segs <> [] -> Forall no_slash segs -> split_slash (join segs) = segs.
Proof.
  intros H1 H2. induction H2 as [|s segs Hs HF IH]; [congruence|]. clear H1.
  destruct segs as [|s' segs].
  - cbn. clear IH HF. induction s as [|c s IH]; cbn; auto.
    destruct (N.eqb_spec c SLASH) as [->|Hc]; [destruct Hs; left; auto|]. rewrite IH; auto. intros H; apply Hs; right; auto.
  - rewrite join_cons by congruence. specialize (IH ltac:(congruence)).
    clear HF. induction s as [|c s IHs]; cbn [split_slash app].
    + change (47 =? SLASH) with true. cbn iota. rewrite IH. reflexivity.
    + destruct (N.eqb_spec c SLASH) as [->|Hc]; [destruct Hs; left; auto|].
      rewrite IHs by (intros H; apply Hs; right; auto). reflexivity.
Qed.

Lemma join_snoc segs : segs <> [] -> join (segs ++ [[]]) = join segs ++ [47].
Proof.
  induction segs as [|s segs IH]; [congruence|]. intros _. destruct segs as [|s' segs].
  - reflexivity.
  - change ((s :: s' :: segs) ++ [[]]) with (s :: (s' :: segs) ++ [[]]).
    rewrite !join_cons by (try discriminate; destruct segs; discriminate).
    rewrite IH by congruence. rewrite <- app_assoc. reflexivity.
Qed.

Lemma rev_last {A} (l : list A) d : l <> [] -> exists r, rev l = last l d :: r.
Proof.
  intros H. destruct (exists_last H) as (l' & a & ->). rewrite rev_app_distr, last_last. cbn. eauto.
Qed.

Lemma split_term segs trail : Forall no_slash segs -> segs <> [] ->
  (trail = [] /\ last segs [] <> [] \/ trail = [47]) -> split_terminator (join segs ++ trail) = segs.
Proof.
  intros HF HN [(-> & HL)| ->]; unfold split_terminator.
  - rewrite app_nil_r, split_of_join by auto. destruct (rev_last segs [] HN) as (r & ->).
    destruct (last segs []); [congruence|reflexivity].
  - rewrite <- join_snoc by auto. rewrite split_of_join.
    + rewrite rev_app_distr. cbn. apply rev_involutive.
    + destruct segs; discriminate.
    + apply Forall_app. split; auto. constructor; auto. intros [].
Qed.

Lemma trim_repeat n s : trim_start (repeat 47 n ++ s) = trim_start s.
Proof. induction n; cbn; auto. Qed.

Lemma trim_id c s : c <> 47 -> trim_start (c :: s) = c :: s.
Proof. intros H. cbn. destruct (N.eqb_spec c SLASH) as [->|]; [destruct H; reflexivity|auto]. Qed.

Lemma path_of_hd segs trail : Forall no_slash segs -> segs <> [] -> hd [] segs <> [] ->
  exists c s, c <> 47 /\ join segs ++ trail = c :: s.
Proof.
  intros HF HN Hh. destruct segs as [|s segs]; [congruence|]. cbn in Hh. destruct s as [|c s]; [congruence|].
  inversion HF; subst. exists c, (join (s :: segs) ++ trail). split; [intros ->; apply H1; left; auto|].
  rewrite join_cons_char. reflexivity.
Qed.

Lemma path_of_split segs path : path_of segs path -> split_terminator (trim_start path) = segs.
Proof.
  intros (n & trail & -> & HF & HN & Hh & HT). rewrite trim_repeat.
  destruct (path_of_hd segs trail HF HN Hh) as (c & s & Hc & E). rewrite E, trim_id, <- E by auto. apply split_term; auto.
Qed.

Lemma path_of_not_root segs path : path_of segs path -> path <> [] /\ path <> [SLASH].
Proof.
  intros (n & trail & -> & HF & HN & Hh & HT).
  destruct (path_of_hd segs trail HF HN Hh) as (c & s & Hc & E). rewrite E.
  destruct n as [|[|n]]; cbn; split; intros H; try discriminate; unfold SLASH in H; congruence.
Qed.

Lemma walk_path_segs fuel d r segs path : path_of segs path ->
  walk_path fuel d r path = walk_segments fuel d r segs.
Proof.
  intros H. unfold walk_path. destruct (path_of_not_root _ _ H) as (H1 & H2).
  destruct path as [|c path]; [congruence|].
  destruct (str_eqb (c :: path) [SLASH]) eqn:E; [apply str_eqb_spec in E; congruence|].
  rewrite (path_of_split _ _ H). reflexivity.
Qed.

Lemma trim_spec s : exists n, s = repeat 47 n ++ trim_start s /\ (trim_start s = [] \/ exists c t, trim_start s = c :: t /\ c <> 47).
Proof.
  induction s as [|c s (n & IH1 & IH2)].
  - exists 0%nat. cbn. auto.
  - cbn. destruct (N.eqb_spec c SLASH) as [->|Hc].
    + exists (S n). cbn. split; auto. f_equal. auto.
    + exists 0%nat. cbn. split; auto. right. exists c, s. split; auto.
Qed.

Lemma path_cases path : (exists n, path = repeat 47 n) \/ exists segs, path_of segs path.
Proof.
  destruct (trim_spec path) as (n & H1 & [H2|(c & t & H2 & Hc)]); rewrite H2 in H1.
  - left. exists n. rewrite app_nil_r in H1. auto.
  - right. destruct (split_join (c :: t)) as (J1 & J2). pose proof (split_nonempty (c :: t)) as JN.
    set (ps := split_slash (c :: t)) in *.
    destruct (exists_last JN) as (qs & q & Eq). rewrite Eq in *.
    destruct q as [|q0 q].
    + destruct qs as [|p qs]; [discriminate J1|].
      exists (p :: qs). exists n, [47]. rewrite join_snoc in J1 by discriminate.
      apply Forall_app in J2. destruct J2 as (J2 & _).
      ssplit; auto; [rewrite J1; auto|discriminate|].
      cbn. intros ->. clear -J1 Hc. destruct qs; cbn in J1; congruence.
    + exists (qs ++ [q0 :: q]). exists n, []. rewrite app_nil_r.
      ssplit; auto; [rewrite H1; f_equal; symmetry; exact J1| |].
      * destruct qs as [|p qs]; cbn; [discriminate|]. intros ->. clear -J1 Hc. change (([] :: qs) ++ [q0 :: q]) with ([] :: (qs ++ [q0 :: q])) in J1. rewrite join_cons in J1 by (destruct qs; discriminate). cbn in J1. congruence.
      * left. split; auto. rewrite last_last. discriminate.
Qed.

Lemma path_of_leading segs path : path_of segs path -> path_of segs (47 :: path).
Proof. intros (n & tr & -> & H). exists (S n), tr. split; auto. Qed.

Lemma path_of_trailing segs path : path_of segs path -> last path 0 <> 47 -> path_of segs (path ++ [47]).
Proof.
  intros (n & tr & -> & H1 & H2 & H3 & H4) HL. destruct H4 as [(-> & H4)| ->].
  - exists n, [47]. rewrite app_nil_r, <- app_assoc. ssplit; auto.
  - rewrite app_assoc, last_last in HL. congruence.
Qed.

Lemma c29_lemma fuel d r :
  (forall path, (exists c, In c path /\ c <> 47) -> walk_path fuel d r (47 :: path) = walk_path fuel d r path)
  /\ (forall path, path <> [] -> last path 0 <> 47 -> walk_path fuel d r (path ++ [47]) = walk_path fuel d r path)
  /\ walk_path fuel d r [] = Err NoDirent /\ walk_path fuel d r [47] = Err NoDirent.
Proof.
  ssplit; auto.
  - intros path (c & H1 & H2). destruct (path_cases path) as [(n & ->)|(segs & H)].
    + apply repeat_spec in H1. congruence.
    + rewrite (walk_path_segs _ _ _ _ _ H), (walk_path_segs _ _ _ _ _ (path_of_leading _ _ H)). reflexivity.
  - intros path H1 H2. destruct (path_cases path) as [(n & ->)|(segs & H)].
    + destruct n; [destruct H1; reflexivity|]. exfalso. clear H1. apply H2. clear H2. induction n; auto.
    + rewrite (walk_path_segs _ _ _ _ _ H), (walk_path_segs _ _ _ _ _ (path_of_trailing _ _ H H2)). reflexivity.
Qed.

Lemma join_path_of segs : Forall no_slash segs -> Forall (fun s => s <> []) segs -> segs <> [] -> path_of segs (join segs).
Proof.
  intros H1 H2 H3. exists 0%nat, []. rewrite app_nil_r. ssplit; auto.
  - destruct segs; [congruence|]. inversion H2; auto.
  - left. split; auto. destruct (exists_last H3) as (l & a & ->). rewrite last_last. apply Forall_app in H2.
    destruct H2 as (_ & H2). inversion H2; auto.
Qed.
