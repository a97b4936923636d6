(** Proofs about M_Mount (C112-C115). *)
From Verif Require Import M_Base M_Util M_Layout M_Read M_Remap M_Cli M_Unpack M_Exiso M_Fuse M_Host M_Build M_Mount.
From Verif Require Import S_Mount.
From Verif Require Import P_Base P_Build.
From Coq Require Import Init.Byte Strings.String.
From Coq Require Import List.
Local Close Scope string_scope.
Local Open Scope N_scope.

(** ** Options *)
Lemma starts_with_app a s : M_Remap.starts_with a s = true <-> exists b, s = a ++ b.
Proof.
  revert s. induction a as [|c a IH]; intros [|d s]; cbn; [split; eauto|split; eauto|split; [discriminate|intros (b & E); discriminate]|].
  rewrite andb_true_iff, N.eqb_eq, IH. split; [intros (-> & b & ->); eauto|intros (b & E); injection E as <- ->; eauto].
Qed.
Lemma piece_plain s o : In (s, o) plain_options -> read_piece (text s) = PMount o.
Proof. unfold plain_options. cbn [In]. intros H. repeat destruct H as [H|H]; try (injection H as <- <-; vm_compute; reflexivity). contradiction. Qed.

Lemma plain_ne x s y : ~ (exists b, x = s ++ b) -> (exists b, y = s ++ b) -> str_eqb y x = false.
Proof. intros H1 H2. destruct (str_eqb y x) eqn:E; auto. apply str_eqb_spec in E. subst. contradiction. Qed.
Lemma piece_fsname s : read_piece (text "fsname=" ++ s) = PMount (FSName s).
Proof. reflexivity. Qed.
Lemma piece_subtype s : read_piece (text "subtype=" ++ s) = PMount (Subtype s).
Proof. reflexivity. Qed.

Lemma piece_case x : match read_piece x with
  | PMount o => option_means x o
  | PFork true => x = text "fork" | PFork false => x = text "nofork"
  | PUnsupported => ~ known x
  end.
Proof.
  unfold read_piece.
  repeat match goal with |- context [if str_eqb x (text ?s) then PMount ?o else _] => let E := fresh "E" in destruct (str_eqb x (text s)) eqn:E; [apply str_eqb_spec in E; subst x; apply om_plain; cbn; tauto|] end.
  destruct (M_Remap.starts_with (text "fsname=") x) eqn:F1; [apply starts_with_app in F1 as (b & ->); apply om_fsname|].
  destruct (M_Remap.starts_with (text "subtype=") x) eqn:F2; [apply starts_with_app in F2 as (b & ->); apply om_subtype|].
  destruct (str_eqb x (text "fork")) eqn:F3; [apply str_eqb_spec; exact F3|].
  destruct (str_eqb x (text "nofork")) eqn:F4; [apply str_eqb_spec; exact F4|].
  intros [[->| ->]|(o & Ho)]; [vm_compute in F3; discriminate|vm_compute in F4; discriminate|]. destruct Ho as [s o H|s|s].
  - unfold plain_options in H. cbn [In] in H. repeat destruct H as [H|H]; try contradiction; injection H as <- <-;
      match goal with E : str_eqb (text ?s) (text ?s) = false |- _ => vm_compute in E; discriminate end.
  - vm_compute in F1. discriminate.
  - vm_compute in F2. discriminate.
Qed.

Lemma joined_split l : l <> [] -> Forall (fun p => ~ In 44 p) l -> split_at 44 (joined l) = l.
Proof.
  induction l as [|p [|q l] IH]; intros Hn F; [congruence| |]; inversion F as [|? ? Hp F']; subst; cbn [joined].
  - apply split_at_plain. exact Hp.
  - rewrite split_at_first by exact Hp. f_equal. apply IH; [discriminate|exact F'].
Qed.
Lemma listed_split opts ps : listed opts ps -> ps = concat (map (split_at COMMA) opts).
Proof.
  intros (pss & F & ->). f_equal. induction F as [|o l opts pss (-> & Hn & Hl) F IH]; [reflexivity|]. cbn [map]. f_equal; [symmetry; apply joined_split; auto|exact IH].
Qed.

Definition has_fs (l : list mopt) : bool := existsb (fun o => match o with FSName _ => true | _ => false end) l.
Definition has_sub (l : list mopt) : bool := existsb (fun o => match o with Subtype _ => true | _ => false end) l.
Lemma has_fs_in l : if has_fs l then exists s, In (FSName s) l else forall s, ~ In (FSName s) l.
Proof.
  unfold has_fs. destruct (existsb _ l) eqn:E.
  - apply existsb_exists in E as (o & H & X). destruct o; try discriminate. eauto.
  - intros s H. assert (X := existsb_exists (fun o => match o with FSName _ => true | _ => false end) l). rewrite E in X. destruct X as (_ & X). discriminate X. exists (FSName s). auto.
Qed.
Lemma has_sub_in l : if has_sub l then exists s, In (Subtype s) l else forall s, ~ In (Subtype s) l.
Proof.
  unfold has_sub. destruct (existsb _ l) eqn:E.
  - apply existsb_exists in E as (o & H & X). destruct o; try discriminate. eauto.
  - intros s H. assert (X := existsb_exists (fun o => match o with Subtype _ => true | _ => false end) l). rewrite E in X. destruct X as (_ & X). discriminate X. exists (Subtype s). auto.
Qed.

Lemma steps ps : forall st, match foldM mount_step st ps with
  | Ok st' => exists given, mount_options ps given /\ ms_opts st' = ms_opts st ++ given /\ ms_fsname st' = (ms_fsname st || has_fs given)%bool
      /\ ms_subtype st' = (ms_subtype st || has_sub given)%bool
      /\ (ms_fork st' = false <-> foreground ps \/ ms_fork st = false /\ ~ In (text "fork") ps)
  | Err _ => exists p, In p ps /\ ~ known p
  | _ => False
  end.
Proof.
  induction ps as [|x ps IH]; intros st; cbn [foldM].
  - exists []. ssplit; auto; [constructor|rewrite app_nil_r; reflexivity|rewrite orb_false_r; reflexivity|rewrite orb_false_r; reflexivity|].
    split; [auto|intros [(a & b & E & _)|(H & _)]; auto; destruct a; discriminate].
  - unfold mount_step at 1. pose proof (piece_case x) as Hx. destruct (read_piece x) as [o|f|]; cbn [bind].
    + specialize (IH (mkMstate (ms_opts st ++ [o]) (match o with FSName _ => true | _ => ms_fsname st end) (match o with Subtype _ => true | _ => ms_subtype st end) (ms_fork st))).
      destruct (foldM mount_step _ ps) as [st'|e|p|]; [|destruct IH as (p & Hp & Hk); exists p; split; [right|]; auto|contradiction|contradiction].
      destruct IH as (given & H1 & H2 & H3 & H4 & H5). exists (o :: given). cbn [ms_opts ms_fsname ms_subtype ms_fork] in *.
      assert (Hnf : x <> text "fork" /\ x <> text "nofork").
      { split; intros ->; inversion Hx as [s o' Hin E| |]; subst; unfold plain_options in Hin; cbn [In] in Hin; repeat destruct Hin as [Hin|Hin]; try contradiction; injection Hin as <- <-; vm_compute in E; discriminate. }
      ssplit; [apply mo_mount; auto|rewrite H2, <- app_assoc; reflexivity| | |].
      * rewrite H3. cbn [has_fs existsb]. destruct o; cbn; auto; rewrite ?orb_true_r; auto; destruct (ms_fsname st); auto.
      * rewrite H4. cbn [has_sub existsb]. destruct o; cbn; auto; rewrite ?orb_true_r; auto; destruct (ms_subtype st); auto.
      * rewrite H5. split.
        -- intros [(a & b & -> & Hb)|(Hf & Hn)]; [left; exists (x :: a), b; auto|right; split; auto; intros [E|E]; [apply (proj1 Hnf); auto|auto]].
        -- intros [(a & b & E & Hb)|(Hf & Hn)]; [|right; split; auto; intros Hi; apply Hn; right; exact Hi].
           destruct a as [|y a]; injection E as Ey E; [destruct (proj2 Hnf Ey)|]. left. exists a, b. auto.
    + specialize (IH (mkMstate (ms_opts st) (ms_fsname st) (ms_subtype st) f)).
      destruct (foldM mount_step _ ps) as [st'|e|p|]; [|destruct IH as (p & Hp & Hk); exists p; split; [right|]; auto|contradiction|contradiction].
      destruct IH as (given & H1 & H2 & H3 & H4 & H5). exists given. cbn [ms_opts ms_fsname ms_subtype ms_fork] in *.
      ssplit; auto; [apply mo_fork; auto; destruct f; [left|right]; exact Hx|]. rewrite H5. destruct f; subst x.
      * split; [intros [(a & b & -> & Hb)|(E & _)]; [left; exists (text "fork" :: a), b; auto|discriminate]|].
        intros [(a & b & E & Hb)|(_ & Hn)]; [|destruct Hn; left; reflexivity]. destruct a as [|y a]; injection E as Ey E; [vm_compute in Ey; discriminate|]. left. exists a, b. auto.
      * split; [|intros [(a & b & E & Hb)|(Hf & Hn)]].
        -- intros [(a & b & -> & Hb)|(_ & Hn)]; left; [exists (text "nofork" :: a), b; auto|exists [], ps; auto].
        -- destruct a as [|y a]; [injection E as E; right; subst b; auto|injection E as Ey E; left; exists a, b; auto].
        -- right. split; auto. intros Hi. apply Hn. right. exact Hi.
    + exists x. split; [left; reflexivity|exact Hx].
Qed.
Lemma c112_lemma src opts ps : listed opts ps ->
  match convert_opts src opts with
  | Ok (fork, l) => exists given, mount_options ps given /\ with_defaults src given l /\ (fork = false <-> foreground ps)
  | Err _ => exists p, In p ps /\ ~ known p
  | _ => False
  end.
Proof.
  intros HL. apply listed_split in HL. subst ps. unfold convert_opts.
  pose proof (steps (concat (map (split_at COMMA) opts)) (mkMstate [] false false true)) as H. destruct (foldM mount_step _ _) as [st|e|p|]; cbn [bind]; auto.
  destruct H as (given & H1 & H2 & H3 & H4 & H5). cbn [ms_opts ms_fsname ms_subtype ms_fork orb app] in *. exists given. ssplit; auto.
  - rewrite H2, H3, H4. eexists _, _. split; [reflexivity|]. pose proof (has_fs_in given) as F. pose proof (has_sub_in given) as S. split; [destruct (has_fs given)|destruct (has_sub given)]; auto.
  - rewrite H5. split; [intros [H|(E & _)]; [exact H|discriminate]|auto].
Qed.

(** ** The exit status *)
Lemma mount_new_calm file : match mount_new file with Panic _ | OutOfFuel => False | _ => True end.
Proof.
  assert (V : forall d, (forall o n, match d o n with Ok _ | Err _ => True | _ => False end) -> match read_volume d with Panic _ | OutOfFuel => False | _ => True end).
  { intros d Hd. unfold read_volume. specialize (Hd (SECTOR_SIZE * 32) 2048). destruct (d (SECTOR_SIZE * 32) 2048); cbn; try contradiction; auto. destruct (volume_is_valid _); auto. }
  assert (D : forall base o n, match offset_dev (file_dev file) base o n with Ok _ | Err _ => True | _ => False end).
  { intros base o n. unfold offset_dev, file_dev. repeat match goal with |- context [if ?c then _ else _] => destruct c end; auto. }
  assert (P : forall os, match probe (file_dev file) os with Panic _ | OutOfFuel => False | _ => True end).
  { induction os as [|o os IH]; cbn; auto. pose proof (V _ (D o)) as X. destruct (read_volume _); auto. }
  unfold mount_new, open_image, offset_wrapper_new. specialize (P XDVD_OFFSETS). destruct (probe (file_dev file) XDVD_OFFSETS) as [base|e|e|]; cbn [bind]; auto.
  pose proof (V _ (D base)) as X. destruct (read_volume _); cbn; auto.
Qed.
Lemma serve_case kernel file l : serve kernel file l = (if match mount_new file with Ok _ => kernel l | _ => false end then mkRan 0 (Some l) else failed).
Proof. unfold serve. pose proof (mount_new_calm file) as H. destruct (mount_new file); try contradiction; auto. Qed.

Lemma c113_front can_fork kernel src file opts l : convert_opts src opts = Ok (false, l) ->
  (exit_status (mount_image_file can_fork kernel src file opts) = 0 <-> mounted_with (mount_image_file can_fork kernel src file opts) = Some l)
  /\ (mounted_with (mount_image_file can_fork kernel src file opts) = Some l <-> (exists fs, mount_new file = Ok fs) /\ kernel l = true).
Proof.
  intros E. unfold mount_image_file. rewrite E, serve_case. destruct (mount_new file) as [fs| | |]; cbn; [destruct (kernel l); cbn| | |]; (split; split; try congruence; try (intros (X & Y); try destruct X; congruence); eauto).
Qed.
Lemma c113_back kernel src file opts l : convert_opts src opts = Ok (true, l) ->
  exit_status (mount_image_file true kernel src file opts) = 0
  /\ (mounted_with (mount_image_file true kernel src file opts) = Some l <-> (exists fs, mount_new file = Ok fs) /\ kernel l = true).
Proof.
  intros E. unfold mount_image_file. rewrite E, serve_case. cbn. split; [reflexivity|]. destruct (mount_new file) as [fs| | |]; cbn; [destruct (kernel l); cbn| | |]; (split; try congruence; try (intros (X & Y); try destruct X; congruence); eauto).
Qed.
Lemma c114_lemma can_fork kernel h cwd source mp opts : exit_status (run_mount can_fork kernel h cwd source mp opts) <> 101
  \/ exists p q, canonicalize h cwd mp = Ok q /\ h q = Some HDir /\ canonicalize h cwd source = Ok p /\ h p = Some HDir.
Proof.
  unfold run_mount, existing. destruct (canonicalize h cwd mp) as [q| | |]; cbn [bind]; try (left; discriminate). destruct (h q) as [[|fq]|] eqn:Eq; cbn [bind ok_or]; try (left; discriminate).
  destruct (canonicalize h cwd source) as [p| | |]; cbn [bind]; try (left; discriminate). destruct (h p) as [[|file]|] eqn:Ep; cbn [bind ok_or]; try (left; discriminate); [right; eauto 8|left].
  unfold mount_image_file. destruct (convert_opts (pstr p) opts) as [(f & l)| | |]; try discriminate. rewrite serve_case. destruct (match mount_new file with Ok _ => kernel l | _ => false end), f, can_fork; cbn; discriminate.
Qed.

(** ** Attributes *)
Lemma attr_blocks fs ino a : fuse_getattr fs ino = Ok a -> a_blocks a = (a_size a + 2047) / 2048.
Proof. unfold fuse_getattr. destruct (dirent_by_inode fs ino); intros H; try discriminate; injection H as <-; reflexivity. Qed.
Lemma c115_lemma fs ino a : fuse_getattr fs ino = Ok a ->
  ~ may_write a /\ a_size a <= attr_blksize a * a_blocks a /\ attr_blksize a * a_blocks a < a_size a + attr_blksize a /\ (enough_blocks a <-> a_size a <= 512)
  /\ (forall opts, may_search opts false a <-> ~ In DefaultPermissions opts).
Proof.
  intros H. apply attr_blocks in H. unfold may_write, enough_blocks, may_search, attr_blksize, attr_perm. rewrite H.
  pose proof (N.div_mod (a_size a + 2047) 2048 ltac:(lia)) as D. pose proof (N.mod_lt (a_size a + 2047) 2048 ltac:(lia)) as L. ssplit.
  - intros [X|[X|X]]; vm_compute in X; discriminate.
  - lia.
  - lia.
  - set (q := (a_size a + 2047) / 2048) in *. split; intros X; lia.
  - intros opts. split; [intros X Y; destruct (X Y) as [Z|Z]; vm_compute in Z; discriminate|intros X Y; contradiction].
Qed.
