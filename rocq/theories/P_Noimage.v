(** Proofs about paths (C138) and about files that are no images (C139). *)
From Verif Require Import M_Base M_Util M_Layout M_Read M_Img M_Trie M_Dev M_Xfs M_Cli M_Host M_Unpack M_Exiso M_Stdfs M_Extract M_Copyout M_Desk M_Web M_Pathvec.
From Verif Require Import S_Read S_Img S_Cli S_Unpack S_Exiso S_Target S_Noimage.
From Verif Require Import P_Base P_Pack P_Host P_Unpack P_Exiso P_Target.
From Verif Require Import M_Host.
From Coq Require Import Init.Byte Lia.
Local Open Scope N_scope.

(** ** PathVec (C138) *)
Lemma c138_base m (p : path) n : path_base (E:=unit) m (from_base p n) = Ok p.
Proof. unfold from_base, path_base. rewrite removelast_last. destruct p; reflexivity. Qed.
Lemma c138_root m : exists k, path_base (E:=unit) m [] = Panic k.
Proof. destruct m; eexists; reflexivity. Qed.
Lemma suffix_all {E} (p : path) : @path_suffix E p [] = Ok p.
Proof. induction p as [|c p IH]; [reflexivity|]. cbn [path_suffix]. rewrite IH. reflexivity. Qed.
Lemma suffix_ok {E} (p q s : path) : @path_suffix E p q = Ok s -> p = q ++ s \/ (s = [] /\ exists r, q = p ++ r).
Proof.
  revert q s. induction p as [|c p IH]; intros q s H; [cbn [path_suffix] in H; injection H as <-; right; split; [reflexivity|exists q; reflexivity]|].
  destruct q as [|c' q]; [rewrite suffix_all in H; injection H as <-; left; reflexivity|]. cbn [path_suffix] in H.
  unfold rassert in H. destruct (str_eqb c c') eqn:Ec; cbn [bind] in H; [|discriminate]. apply str_eqb_spec in Ec. subst c'. destruct (IH _ _ H) as [H'|(H' & r & Hr)].
  - left. rewrite H'. reflexivity.
  - right. split; [exact H'|]. exists r. rewrite Hr. reflexivity.
Qed.
Lemma suffix_app {E} (q s : path) : @path_suffix E (q ++ s) q = Ok s.
Proof. induction q as [|c q IH]; [apply suffix_all|]. cbn [app path_suffix]. unfold rassert. rewrite str_eqb_refl. cbn [bind]. exact IH. Qed.
Lemma suffix_short {E} (p r : path) : @path_suffix E p (p ++ r) = Ok [].
Proof. induction p as [|c p IH]; [reflexivity|]. cbn [app path_suffix]. unfold rassert. rewrite str_eqb_refl. cbn [bind]. exact IH. Qed.
Lemma suffix_panics {E} (p q : path) : (exists s, @path_suffix E p q = Ok s) \/ @path_suffix E p q = Panic PAssert.
Proof.
  revert q. induction p as [|c p IH]; intros q; cbn [path_suffix]; [left; eauto|]. destruct q as [|c' q].
  - rewrite suffix_all. left. cbn [bind]. eauto.
  - unfold rassert. destruct (str_eqb c c'); cbn [bind]; [apply IH|right; reflexivity].
Qed.
Lemma c138_suffix (p q : path) :
  (forall s, p = q ++ s -> path_suffix (E:=unit) p q = Ok s)
  /\ (forall r, q = p ++ r -> path_suffix (E:=unit) p q = Ok [])
  /\ ((forall s, p <> q ++ s) -> (forall r, q <> p ++ r) -> path_suffix (E:=unit) p q = Panic PAssert).
Proof.
  ssplit.
  - intros s ->. apply suffix_app.
  - intros r ->. apply suffix_short.
  - intros H1 H2. destruct (suffix_panics (E:=unit) p q) as [(s & H)|H]; [|exact H]. apply suffix_ok in H. destruct H as [H|(_ & r & H)]; [destruct (H1 _ H)|destruct (H2 _ H)].
Qed.
Lemma c138_text (p : path) : ordinary p -> as_string p = 47 :: slashed p /\ path_from_iter (split_slash (as_string p)) = p.
Proof.
  intros H. split; [exact (f_equal (cons 47) (eq_sym (P_Target.slashed_join p)))|]. change (names (as_string p) = p). unfold as_string. change SLASH with 47. etransitivity; [apply names_cons|]. apply names_join. exact H.
Qed.
Lemma c138_inj (p q : path) : ordinary p -> ordinary q -> as_string p = as_string q -> p = q.
Proof. intros Hp Hq E. apply c138_text in Hp, Hq. destruct Hp as (_ & <-). destruct Hq as (_ & <-). rewrite E. reflexivity. Qed.

Lemma relative_name n : ~ In 47 n -> is_absolute n = false.
Proof. intros H. destruct n as [|c n]; [reflexivity|]. cbn. apply N.eqb_neq. intros ->. apply H. left. reflexivity. Qed.
Lemma fold_relative p : Forall unix_name p -> forall a, is_absolute (fold_left pjoin p a) = is_absolute a /\ pcomps (fold_left pjoin p a) = pcomps a ++ p.
Proof.
  intros H. induction H as [|n p Hn H IH]; intros a; cbn [fold_left]; [rewrite app_nil_r; auto|].
  assert (R : is_absolute n = false) by (apply relative_name; apply Hn). destruct (IH (pjoin a n)) as (I1 & I2). rewrite I1, I2. rewrite pcomps_pjoin by exact R.
  rewrite (pcomps_name n Hn), <- app_assoc. split; [|reflexivity]. pose proof (hstart_pjoin [[0]] a n R) as Hs. unfold hstart in Hs.
  destruct (is_absolute (pjoin a n)), (is_absolute a); auto; discriminate.
Qed.
Lemma c138_place cwd prefix p : Forall unix_name p -> place cwd (as_path_buf p prefix) = place cwd prefix ++ p.
Proof.
  intros H. unfold as_path_buf, pathbuf_from_iter. destruct (fold_relative p H []) as (H1 & H2). cbn [is_absolute pcomps] in H1.
  unfold place. rewrite hstart_pjoin, pcomps_pjoin by exact H1. rewrite H2. change (pcomps []) with (@nil str). rewrite app_assoc. reflexivity.
Qed.

(** ** Files that are no images (C139) *)
Lemma no_image_open {A} file (w : world) (k : N -> volume -> world * res uerr unit) (g : world * res uerr unit -> A) : no_image file ->
  exists r, r <> Ok tt /\ uread (offset_wrapper_new (file_dev file)) w (fun base => uread (read_volume (offset_dev (file_dev file) base)) w (k base)) = (w, r).
Proof.
  intros H. unfold uread. destruct (offset_wrapper_new (file_dev file)) as [base|e|e|] eqn:E; try (eexists; split; [|reflexivity]; discriminate).
  destruct (read_volume (offset_dev (file_dev file) base)) as [v|e|e|] eqn:Ev; try (eexists; split; [|reflexivity]; discriminate).
  exfalso. apply (H (offset_dev (file_dev file) base) v); [unfold open_image; rewrite E; reflexivity|exact Ev].
Qed.
Lemma open_names cwd s w p file k : names_file (w_fs w) cwd s p file -> open_raw cwd s w k = k p file.
Proof. intros (H1 & H2). unfold open_raw, existing. rewrite H1. cbn [bind]. rewrite H2. reflexivity. Qed.

Lemma c139_unpack_lemma fuel dup cwd s target w p file : names_file (w_fs w) cwd s p file -> no_image file ->
  fst (unpack_dup fuel dup cwd s target w) = w /\ snd (unpack_dup fuel dup cwd s target w) <> Ok tt.
Proof.
  intros HF HN. unfold unpack_dup. destruct (unpack_target s target) as [dest|e|e|]; try (split; [reflexivity|discriminate]).
  rewrite (open_names _ _ _ _ _ _ HF). destruct (no_image_open file w (fun base v => copyout_directory_dup fuel dup cwd p base dest (v_root v) w) (fun x => x) HN) as (r & Hr & ->). split; [reflexivity|exact Hr].
Qed.
Lemma c139_unpack_at fuel cwd s target w p file : names_file (w_fs w) cwd s p file -> no_image file ->
  fst (unpack_at fuel cwd s target w) = w /\ snd (unpack_at fuel cwd s target w) <> Ok tt.
Proof.
  intros HF HN. unfold unpack_at. destruct (unpack_target s target) as [dest|e|e|]; try (split; [reflexivity|discriminate]).
  rewrite (open_names _ _ _ _ _ _ HF). destruct (no_image_open file w (fun base v => copyout_directory_at fuel cwd p base dest (v_root v) w) (fun x => x) HN) as (r & Hr & ->). split; [reflexivity|exact Hr].
Qed.
Lemma c139_copyout_lemma fuel dup cwd s src dest w p file : names_file (w_fs w) cwd s p file -> no_image file ->
  fst (copyout_dup fuel dup cwd s src dest w) = w /\ snd (copyout_dup fuel dup cwd s src dest w) <> Ok tt.
Proof.
  intros HF HN. unfold copyout_dup. rewrite (open_names _ _ _ _ _ _ HF). cbv zeta.
  match goal with |- context [uread (offset_wrapper_new _) w (fun base => uread _ w (fun v => @?k base v))] => destruct (no_image_open file w k (fun x => x) HN) as (r & Hr & ->) end.
  split; [reflexivity|exact Hr].
Qed.
Lemma c139_extract_lemma fuel cwd directory s xs w p file : names_file (w_fs w) cwd s p file -> no_image file ->
  fst (exiso_extract fuel cwd directory (s :: xs) w) = w /\ snd (exiso_extract fuel cwd directory (s :: xs) w) <> Ok tt.
Proof.
  intros HF HN. cbn [exiso_extract]. destruct (c139_unpack_at fuel cwd s directory w p file HF HN) as (H1 & H2).
  destruct (unpack_at fuel cwd s directory w) as [w' [u|e|e|]]; cbn [fst snd] in *; subst; try (split; [reflexivity|discriminate]). destruct u. congruence.
Qed.

Lemma c139_repack_lemma {D} fuel m (W : wdev D) d cp s : (forall v, read_volume d <> Ok v) ->
  fst (repack fuel m W d cp s) = s /\ snd (repack fuel m W d cp s) <> Ok tt.
Proof.
  intros H. unfold repack. destruct (read_volume d) as [v|e|e|]; [destruct (H v eq_refl)|..]; unfold plift; split; try reflexivity; discriminate.
Qed.
Lemma packer_no_image ls fuel m h source file : h source = Some (HFile file) -> no_image file ->
  fst (std_packer ls fuel m h source) = [] /\ snd (std_packer ls fuel m h source) <> Ok tt.
Proof.
  intros HS HN. unfold std_packer. rewrite HS. unfold image_packer. rewrite HS.
  destruct (offset_wrapper_new (file_dev file)) as [base|e|e|] eqn:Eb; try (split; [reflexivity|discriminate]).
  destruct (c139_repack_lemma fuel m file_wdev (offset_dev (file_dev file) base) (std_copier file base) ([], [])) as (H1 & H2).
  { intros v. apply HN. unfold open_image. rewrite Eb. reflexivity. }
  destruct (repack _ _ _ _ _ _) as [[img ev] r]. cbn [fst snd] in *. injection H1 as -> ->. unfold pack_result. cbn [fst snd]. split; [reflexivity|]. destruct r as [[]|?|?|]; congruence.
Qed.
Lemma c139_pack_lemma ls fuel m cwd source image w p file : names_file (w_fs w) cwd source p file -> no_image file ->
  exists o, only_empties o (w_fs w) (w_fs (fst (cmd_pack cwd (std_packer ls fuel m) source image w)))
   /\ snd (cmd_pack cwd (std_packer ls fuel m) source image w) <> Ok tt /\ o <> p
   /\ (forall i, image = Some i -> no_dotdot i -> w_fs (fst (cmd_pack cwd (std_packer ls fuel m) source image w)) = w_fs w \/ o = place cwd i).
Proof.
  intros (HC & HS) HN. destruct (cmd_pack cwd (std_packer ls fuel m) source image w) as [w' r] eqn:E. cbn [fst snd].
  apply cmd_pack_step in E as [(E1 & E2)|(p' & n & i & H1 & H2 & H3 & H)].
  - exists (p ++ [[0]]). rewrite E1. ssplit; auto; [left; reflexivity|]. intros Ec. apply (f_equal (@length str)) in Ec. rewrite app_length in Ec. cbn in Ec. lia.
  - rewrite HC in H1. injection H1 as <-. apply pack_step in H as [(E1 & E2)|(o & F1 & F2 & F3 & F4 & F5 & F6)].
    + exists (p ++ [[0]]). rewrite E1. ssplit; auto; [left; reflexivity|]. intros Ec. apply (f_equal (@length str)) in Ec. rewrite app_length in Ec. cbn in Ec. lia.
    + assert (HS' : hset (w_fs w) o (HFile []) p = Some (HFile file)) by (rewrite hset_neq; auto).
      destruct (packer_no_image ls fuel m _ _ _ HS' HN) as (P1 & P2). exists o. ssplit; auto.
      * intros q. destruct (hpath_eqb_spec q o) as [->|Hq]; [right; split; [reflexivity|]; rewrite F4, packed_eq, P1; reflexivity|left; rewrite F4; apply packed_neq; exact Hq].
      * rewrite F5. exact P2.
      * intros i0 -> Hd. subst i. right. apply F6. exact Hd.
Qed.
Lemma c139_web_lemma fuel m quota file old : no_image file ->
  fst (fst (web_repack fuel m quota file old)) = old /\ snd (web_repack fuel m quota file old) <> Ok tt.
Proof.
  intros HN. unfold web_repack. destruct (open_image file) as [d|e|e|] eqn:Eo; try (split; [reflexivity|discriminate]).
  destruct (c139_repack_lemma fuel m (web_wdev quota) d (default_copier d (web_wdev quota)) (web_new, [])) as (H1 & H2).
  { intros v. apply HN. exact Eo. }
  unfold web_close. destruct (repack _ _ _ _ _ _) as [[w ev] r]. cbn [fst snd] in *. split; [|exact H2]. destruct r as [[]|?|?|]; try reflexivity. congruence.
Qed.
