(** Proofs for C162: reading from devices that change or fail meanwhile. *)
From Verif Require Import M_Base M_Util M_Layout M_Read M_Check M_Live.
From Verif Require Import S_Read S_Total S_Live.
From Verif Require Import P_Base P_Total.
From Coq Require Import Init.Byte.
Local Open Scope N_scope.

(** ** Running a sequence *)
Definition after_run {S A B} (x : S * res rerr A) (f : S -> A -> S * res rerr B) : S * res rerr B :=
  match x with
  | (s, Ok a) => f s a
  | (s, Err e) => (s, Err e)
  | (s, Panic p) => (s, Panic p)
  | (s, OutOfFuel) => (s, OutOfFuel)
  end.
Lemma live_bind {S A B} (D : ldev S) (x : rd A) (f : A -> rd B) : forall s, live D s (rbind x f) = after_run (live D s x) (fun s a => live D s (f a)).
Proof.
  induction x as [r|o n k IH]; intros s; [destruct r; reflexivity|]. simpl. destruct (D s o n) as [s' b]. apply IH.
Qed.
Definition on {A} (d : dev) (x : rd A) : res rerr A := snd (live (still d) tt x).
Lemma on_bind {A B} d (x : rd A) (f : A -> rd B) : on d (rbind x f) = let* a := on d x in on d (f a).
Proof. unfold on. rewrite live_bind. destruct (live (still d) tt x) as [[] []]; reflexivity. Qed.
Lemma on_done {A} d (r : res rerr A) : on d (Done r) = r.
Proof. reflexivity. Qed.
Lemma on_ask d o n : on d (ask o n) = io (d o n).
Proof. reflexivity. Qed.
Lemma on_try {A B} d (x : rd A) (f : A -> rd B) g : on d (rtry x f g) = match on d x with Ok a => on d (f a) | Err _ => on d g | Panic p => Panic p | OutOfFuel => OutOfFuel end.
Proof.
  induction x as [r|o n k IH]; [destruct r; reflexivity|]. unfold on in *. simpl. apply IH.
Qed.
Lemma bind_eq {E A B} (x y : res E A) (f g : A -> res E B) : x = y -> (forall a, f a = g a) -> bind x f = bind y g.
Proof. intros -> H. destruct y; simpl; auto. Qed.

Section Same.
Variable d : dev.
Variable base : N.
Notation D := (offset_dev d base).
Lemma same_dirent o : on d (l_dirent base o) = read_dirent D o.
Proof.
  unfold l_dirent, read_dirent. rewrite on_bind, on_ask. apply bind_eq; [reflexivity|]. intros b. destruct (deserialize_dirent_node b o); [|reflexivity].
  rewrite on_bind, on_ask. reflexivity.
Qed.
Lemma same_find_loop fuel r name : forall o, on d (l_find_loop fuel base r name o) = find_loop fuel D r name o.
Proof.
  induction fuel as [|fuel IH]; intros o; [reflexivity|]. cbn [l_find_loop find_loop]. rewrite on_bind, same_dirent. apply bind_eq; [reflexivity|]. intros x.
  rewrite on_bind, on_done. apply bind_eq; [reflexivity|]. intros e.
  destruct (cmp_ignore_case_utf8 name (name_str e)); [reflexivity| |].
  - destruct (d_left (e_node e) =? 0); [reflexivity|]. rewrite on_bind, on_done. apply bind_eq; [reflexivity|]. exact IH.
  - destruct (d_right (e_node e) =? 0); [reflexivity|]. rewrite on_bind, on_done. apply bind_eq; [reflexivity|]. exact IH.
Qed.
Lemma same_find fuel r name : on d (l_find fuel base r name) = find_dirent fuel D r name.
Proof.
  unfold l_find, find_dirent. destruct (region_is_empty r); [reflexivity|]. rewrite on_bind, on_done. apply bind_eq; [reflexivity|].
  intros o. apply same_find_loop.
Qed.
Lemma same_segments fuel segs : forall r, on d (l_segments fuel base r segs) = walk_segments fuel D r segs.
Proof.
  induction segs as [|s segs IH]; intros r; [reflexivity|]. cbn [l_segments walk_segments]. rewrite on_bind, same_find. apply bind_eq; [reflexivity|]. intros e.
  destruct segs; [reflexivity|]. rewrite on_bind, on_done. apply bind_eq; [reflexivity|]. intros t. apply IH.
Qed.
Lemma same_path fuel r path : on d (l_path fuel base r path) = walk_path fuel D r path.
Proof. unfold l_path, walk_path. destruct path; [reflexivity|]. destruct str_eqb; [reflexivity|]. apply same_segments. Qed.
Lemma same_walk_loop fuel r : forall st acc, on d (l_walk_loop fuel base r st acc) = walk_loop fuel D r st acc.
Proof.
  induction fuel as [|fuel IH]; intros st acc; [destruct st; reflexivity|]. destruct st as [|top st]; [reflexivity|]. cbn [l_walk_loop walk_loop].
  rewrite on_bind, on_done. apply bind_eq; [reflexivity|]. intros o. rewrite on_bind, same_dirent. apply bind_eq; [reflexivity|]. intros [e|]; apply IH.
Qed.
Lemma same_walk fuel r : on d (l_walk fuel base r) = walk_dirent_tree fuel D r.
Proof. unfold l_walk, walk_dirent_tree. destruct region_is_empty; [reflexivity|]. apply same_walk_loop. Qed.
Lemma same_tree_loop fuel : forall st acc, on d (l_tree_loop fuel base st acc) = file_tree_loop fuel D st acc.
Proof.
  induction fuel as [|fuel IH]; intros st acc; [destruct st as [|[]]; reflexivity|]. destruct st as [|[p t] st]; [reflexivity|]. cbn [l_tree_loop file_tree_loop].
  rewrite on_bind, same_walk. apply bind_eq; [reflexivity|]. intros es. apply IH.
Qed.
Lemma same_tree fuel r : on d (l_tree fuel base r) = file_tree fuel D r.
Proof. apply same_tree_loop. Qed.
Lemma same_next_sector s : on d (l_next_sector base s) = next_sector D s.
Proof. unfold l_next_sector, next_sector. destruct (s_end s <=? s_sector s + 1); [reflexivity|]. rewrite on_bind, on_ask. reflexivity. Qed.
Lemma same_next_loop fuel : forall s, on d (l_next_loop fuel base s) = next_loop fuel D s.
Proof.
  induction fuel as [|fuel IH]; intros s; [reflexivity|]. cbn [l_next_loop next_loop]. rewrite on_bind, on_done. apply bind_eq; [reflexivity|]. intros _.
  destruct (deserialize_dirent_node _ _) as [e|].
  - cbv zeta. rewrite on_bind, on_done. apply bind_eq; [reflexivity|]. intros _. rewrite on_bind. apply bind_eq; [|reflexivity].
    destruct (SECTOR_SIZE <=? _); [apply same_next_sector|reflexivity].
  - destruct (s_sector s + 1 <? s_end s); [|reflexivity]. rewrite on_bind, same_next_sector. apply bind_eq; [reflexivity|exact IH].
Qed.
Lemma same_next fuel s : on d (l_next fuel base s) = next_entry fuel D s.
Proof. unfold l_next, next_entry. destruct (s_end s <=? s_sector s); [reflexivity|]. apply same_next_loop. Qed.
Lemma same_collect fuel : forall s, on d (l_collect fuel base s) = collect_scan fuel D s.
Proof.
  induction fuel as [|fuel IH]; intros s; [reflexivity|]. cbn [l_collect collect_scan]. rewrite on_bind, same_next. apply bind_eq; [reflexivity|].
  intros [[e|] s']; [|reflexivity]. rewrite on_bind. apply bind_eq; [apply IH|reflexivity].
Qed.
Lemma same_scan fuel r : on d (l_scan fuel base r) = scan_all fuel D r.
Proof.
  unfold l_scan, scan_all. rewrite on_bind. apply bind_eq; [|apply same_collect].
  unfold l_scan_start, scan_dirent_tree. destruct (region_is_empty r); [reflexivity|]. rewrite on_bind, on_done. apply bind_eq; [reflexivity|]. intros o.
  rewrite on_bind, on_ask. reflexivity.
Qed.
Lemma same_data x : on d (l_data base x) = read_data_all D x.
Proof. unfold l_data, read_data_all. destruct (_ =? 0); [reflexivity|]. rewrite on_bind, on_done. reflexivity. Qed.
Lemma same_data_at x n o : on d (l_data_at base x n o) = read_data_offset D x n o.
Proof. unfold l_data_at, read_data_offset. destruct (_ =? 0); [reflexivity|]. rewrite on_bind, on_done. reflexivity. Qed.
Lemma same_steps m : forall h, on d (l_steps base h m) = foldM (checksum_step D) h m.
Proof.
  induction m as [|x m IH]; intros h; [reflexivity|]. cbn [l_steps foldM]. unfold checksum_step at 1. cbv zeta.
  destruct (is_directory (d_dirent (e_node (snd x)))); [simpl; apply IH|].
  rewrite on_bind, same_data. destruct (read_data_all D (d_dirent (e_node (snd x)))); simpl; auto.
Qed.
Lemma same_checksum H fuel v : on d (l_checksum H fuel base v) = checksum H fuel D v.
Proof.
  unfold l_checksum, checksum. rewrite on_bind, same_tree. apply bind_eq; [reflexivity|]. intros t. rewrite on_bind, same_steps. reflexivity.
Qed.
Lemma same_volume : on d (l_volume base) = read_volume D.
Proof. reflexivity. Qed.
Lemma same_root v : on d (l_root_dirent base v) = root_dirent D v.
Proof. unfold l_root_dirent, root_dirent. destruct region_is_empty; [reflexivity|]. rewrite on_bind, on_done. apply bind_eq; [reflexivity|]. intros o. apply same_dirent. Qed.
End Same.
Lemma same_probe d os : on d (l_probe os) = probe d os.
Proof. induction os as [|o os IH]; [reflexivity|]. cbn [l_probe probe]. rewrite on_try, same_volume, IH. reflexivity. Qed.

(** ** Intermittent failures *)
Fixpoint reports {A} (x : rd A) : Prop :=
  match x with
  | Done _ => True
  | Ask o n k => (forall e, k (Err e) = Done (Err (IOError e))) /\ forall b, reports (k b)
  end.
Lemma reports_bind {A B} (x : rd A) (f : A -> rd B) : reports x -> (forall a, reports (f a)) -> reports (rbind x f).
Proof.
  intros HX HF. induction x as [r|o n k IH]; [destruct r; simpl; auto|]. destruct HX as [H1 H2]. split; [intros e; rewrite H1; reflexivity|].
  intros b. apply IH, H2.
Qed.
Lemma reports_ask o n : reports (ask o n).
Proof. split; [reflexivity|]. intros b. exact I. Qed.
Lemma reports_right {S A} (D : ldev S) d (x : rd A) : intermittent D d -> reports x -> right_or_io D x (on d x).
Proof.
  intros HD. unfold on. induction x as [r|o n k IH]; intros HX s; [left; reflexivity|]. destruct HX as [H1 H2]. simpl. pose proof (HD s o n) as H.
  destruct (D s o n) as [s' b]. simpl in H. destruct H as [->|[e ->]].
  - apply (IH (d o n)), H2.
  - right. exists e. rewrite H1. reflexivity.
Qed.
Create HintDb rep.
#[local] Hint Resolve reports_ask : rep.
Ltac rep := repeat first [match goal with |- reports (rbind _ _) => apply reports_bind; [|intros] end | match goal with |- reports (Done _) => exact I end | solve [auto with rep] | match goal with |- reports (match ?x with _ => _ end) => destruct x end | match goal with |- reports (if ?x then _ else _) => destruct x end].
Lemma rep_dirent b o : reports (l_dirent b o).
Proof. unfold l_dirent. rep. Qed.
#[local] Hint Resolve rep_dirent : rep.
Lemma rep_find_loop fuel b r n : forall o, reports (l_find_loop fuel b r n o).
Proof. induction fuel as [|fuel IH]; intros o; [exact I|]. cbn [l_find_loop]. cbv zeta. rep. Qed.
#[local] Hint Resolve rep_find_loop : rep.
Lemma rep_find fuel b r n : reports (l_find fuel b r n).
Proof. unfold l_find. rep. Qed.
#[local] Hint Resolve rep_find : rep.
Lemma rep_segments fuel b segs : forall r, reports (l_segments fuel b r segs).
Proof. induction segs as [|s segs IH]; intros r; [exact I|]. cbn [l_segments]. rep. Qed.
#[local] Hint Resolve rep_segments : rep.
Lemma rep_path fuel b r p : reports (l_path fuel b r p).
Proof. unfold l_path. rep. Qed.
Lemma rep_walk_loop fuel b r : forall st acc, reports (l_walk_loop fuel b r st acc).
Proof. induction fuel as [|fuel IH]; intros st acc; destruct st; try exact I. cbn [l_walk_loop]. cbv zeta. rep. Qed.
#[local] Hint Resolve rep_walk_loop : rep.
Lemma rep_walk fuel b r : reports (l_walk fuel b r).
Proof. unfold l_walk. rep. Qed.
#[local] Hint Resolve rep_walk : rep.
Lemma rep_tree_loop fuel b : forall st acc, reports (l_tree_loop fuel b st acc).
Proof. induction fuel as [|fuel IH]; intros st acc; destruct st as [|[]]; try exact I. cbn [l_tree_loop]. rep. Qed.
#[local] Hint Resolve rep_tree_loop : rep.
Lemma rep_tree fuel b r : reports (l_tree fuel b r).
Proof. unfold l_tree. rep. Qed.
#[local] Hint Resolve rep_tree : rep.
Lemma rep_next_sector b s : reports (l_next_sector b s).
Proof. unfold l_next_sector. cbv zeta. rep. Qed.
#[local] Hint Resolve rep_next_sector : rep.
Lemma rep_next_loop fuel b : forall s, reports (l_next_loop fuel b s).
Proof. induction fuel as [|fuel IH]; intros s; [exact I|]. cbn [l_next_loop]. cbv zeta. rep. Qed.
#[local] Hint Resolve rep_next_loop : rep.
Lemma rep_next fuel b s : reports (l_next fuel b s).
Proof. unfold l_next. rep. Qed.
#[local] Hint Resolve rep_next : rep.
Lemma rep_collect fuel b : forall s, reports (l_collect fuel b s).
Proof. induction fuel as [|fuel IH]; intros s; [exact I|]. cbn [l_collect]. rep. Qed.
#[local] Hint Resolve rep_collect : rep.
Lemma rep_scan fuel b r : reports (l_scan fuel b r).
Proof. unfold l_scan, l_scan_start. rep. Qed.
Lemma rep_data b x : reports (l_data b x).
Proof. unfold l_data. cbv zeta. rep. Qed.
#[local] Hint Resolve rep_data : rep.
Lemma rep_data_at b x n o : reports (l_data_at b x n o).
Proof. unfold l_data_at. cbv zeta. rep. Qed.
Lemma rep_steps b m : forall h, reports (l_steps b h m).
Proof. induction m as [|x m IH]; intros h; [exact I|]. cbn [l_steps]. cbv zeta. rep. Qed.
#[local] Hint Resolve rep_steps : rep.
Lemma rep_checksum H fuel b v : reports (l_checksum H fuel b v).
Proof. unfold l_checksum. rep. Qed.
Lemma rep_root b v : reports (l_root_dirent b v).
Proof. unfold l_root_dirent. rep. Qed.

Lemma c162_right {S} (D : ldev S) d base : intermittent D d ->
  (forall s, snd (live D s (l_volume base)) = read_volume (offset_dev d base) \/ snd (live D s (l_volume base)) = Err InvalidVolume)
  /\ (forall v, right_or_io D (l_root_dirent base v) (root_dirent (offset_dev d base) v))
  /\ (forall fuel r path, right_or_io D (l_path fuel base r path) (walk_path fuel (offset_dev d base) r path))
  /\ (forall fuel r, right_or_io D (l_walk fuel base r) (walk_dirent_tree fuel (offset_dev d base) r))
  /\ (forall fuel r, right_or_io D (l_tree fuel base r) (file_tree fuel (offset_dev d base) r))
  /\ (forall fuel r, right_or_io D (l_scan fuel base r) (scan_all fuel (offset_dev d base) r))
  /\ (forall x, right_or_io D (l_data base x) (read_data_all (offset_dev d base) x))
  /\ (forall x n o, right_or_io D (l_data_at base x n o) (read_data_offset (offset_dev d base) x n o))
  /\ (forall H fuel v, right_or_io D (l_checksum H fuel base v) (checksum H fuel (offset_dev d base) v)).
Proof.
  intros HD. split.
  { intros s. unfold l_volume. simpl. pose proof (HD s (SECTOR_SIZE * 32 + base) 2048) as H. change (2048 * 32 + base) with (SECTOR_SIZE * 32 + base).
    destruct (D s (SECTOR_SIZE * 32 + base) 2048) as [s' b]. simpl in H |- *. destruct H as [->|[e ->]]; [left|right]; reflexivity. }
  repeat split; intros.
  - rewrite <- same_root. apply reports_right, rep_root. exact HD.
  - rewrite <- same_path. apply reports_right, rep_path. exact HD.
  - rewrite <- same_walk. apply reports_right, rep_walk. exact HD.
  - rewrite <- same_tree. apply reports_right, rep_tree. exact HD.
  - rewrite <- same_scan. apply reports_right, rep_scan. exact HD.
  - rewrite <- same_data. apply reports_right, rep_data. exact HD.
  - rewrite <- same_data_at. apply reports_right, rep_data_at. exact HD.
  - rewrite <- same_checksum. apply reports_right, rep_checksum. exact HD.
Qed.

(** ** Devices that answer anything *)
Fixpoint tame {A} (x : rd A) : Prop :=
  match x with
  | Done r => np r
  | Ask o n k => (forall e, tame (k (Err e))) /\ forall b, len b = n -> tame (k (Ok b))
  end.
Lemma tame_bind {A B} (x : rd A) (f : A -> rd B) : tame x -> (forall a, tame (f a)) -> tame (rbind x f).
Proof.
  intros HX HF. induction x as [r|o n k IH]; [destruct r as [a|e|p|]; [apply HF|apply np_err|destruct HX; exists p; reflexivity|apply np_fuel]|].
  destruct HX as [H1 H2]. split; [intros e; apply IH, H1|]. intros b L. apply IH, H2, L.
Qed.
Lemma tame_ask o n : tame (ask o n).
Proof. split; [intros e; apply np_err|]. intros b _. apply np_ok. Qed.
Lemma tame_run {S A} (D : ldev S) (x : rd A) : answers D -> tame x -> forall s, ~ panics (snd (live D s x)).
Proof.
  intros HD. induction x as [r|o n k IH]; intros HX s; [exact HX|]. destruct HX as [H1 H2]. simpl. pose proof (HD s o n) as H.
  destruct (D s o n) as [s' b]. simpl in H. destruct H as [(b' & -> & L)|[e ->]]; apply IH; auto.
Qed.
Create HintDb tam.
#[local] Hint Resolve tame_ask : tam.
Ltac tam := repeat first [
   match goal with |- tame (rbind _ _) => apply tame_bind; [|intros] end
 | match goal with |- tame (Done (Ok _)) => apply np_ok end
 | match goal with |- tame (Done (Err _)) => apply np_err end
 | match goal with |- tame (Done OutOfFuel) => apply np_fuel end
 | match goal with |- tame (Done (region_offset _ _)) => apply np_offset end
 | match goal with |- tame (Done (ok_or _ _)) => apply np_ok_or end
 | solve [auto with tam]
 | match goal with |- tame (match ?x with _ => _ end) => destruct x end
 | match goal with |- tame (if ?x then _ else _) => destruct x end].
Lemma tam_dirent b o : tame (l_dirent b o).
Proof. unfold l_dirent. tam. Qed.
#[local] Hint Resolve tam_dirent : tam.
Lemma tam_find_loop fuel b r n : forall o, tame (l_find_loop fuel b r n o).
Proof. induction fuel as [|fuel IH]; intros o; cbn [l_find_loop]; cbv zeta; tam. Qed.
#[local] Hint Resolve tam_find_loop : tam.
Lemma tam_find fuel b r n : tame (l_find fuel b r n).
Proof. unfold l_find. tam. Qed.
#[local] Hint Resolve tam_find : tam.
Lemma tam_segments fuel b segs : segs <> [] -> forall r, tame (l_segments fuel b r segs).
Proof.
  induction segs as [|s segs IH]; intros K r; [destruct K; reflexivity|]. cbn [l_segments]. apply tame_bind; [apply tam_find|]. intros e.
  destruct segs; [apply np_ok|]. apply tame_bind; [apply np_ok_or|]. intros t. apply IH. discriminate.
Qed.
Lemma tam_path fuel b r p : ~ only_slashes p -> tame (l_path fuel b r p).
Proof.
  intros K. unfold l_path. destruct p as [|c p]; [apply np_err|]. destruct (str_eqb (c :: p) [SLASH]) eqn:E; [apply np_err|]. apply tam_segments.
  intros Z. apply K.
  assert (C : calm (fun _ _ => Err UnexpectedEof)) by (intros o n; right; eexists; reflexivity).
  apply (walk_path_np _ C 0 (mkRegion 0 0)). exists PUnreachable. unfold walk_path. rewrite E, Z. reflexivity.
Qed.
Lemma tam_walk_loop fuel b r : forall st acc, tame (l_walk_loop fuel b r st acc).
Proof. induction fuel as [|fuel IH]; intros st acc; destruct st; cbn [l_walk_loop]; cbv zeta; tam. Qed.
#[local] Hint Resolve tam_walk_loop : tam.
Lemma tam_walk fuel b r : tame (l_walk fuel b r).
Proof. unfold l_walk. tam. Qed.
#[local] Hint Resolve tam_walk : tam.
Lemma tam_tree_loop fuel b : forall st acc, tame (l_tree_loop fuel b st acc).
Proof. induction fuel as [|fuel IH]; intros st acc; destruct st as [|[]]; cbn [l_tree_loop]; tam. Qed.
#[local] Hint Resolve tam_tree_loop : tam.
Lemma tam_tree fuel b r : tame (l_tree fuel b r).
Proof. unfold l_tree. tam. Qed.
#[local] Hint Resolve tam_tree : tam.
Lemma tam_data b x : tame (l_data b x).
Proof. unfold l_data. cbv zeta. tam. Qed.
#[local] Hint Resolve tam_data : tam.
Lemma tam_data_at b x n o : tame (l_data_at b x n o).
Proof. unfold l_data_at. cbv zeta. tam. Qed.
Lemma tam_steps b m : forall h, tame (l_steps b h m).
Proof. induction m as [|x m IH]; intros h; cbn [l_steps]; cbv zeta; tam. Qed.
#[local] Hint Resolve tam_steps : tam.
Lemma tam_checksum H fuel b v : tame (l_checksum H fuel b v).
Proof. unfold l_checksum. tam. Qed.
Lemma tam_root b v : tame (l_root_dirent b v).
Proof. unfold l_root_dirent. tam. Qed.
Lemma tam_volume b : tame (l_volume b).
Proof. split; [intros e; apply np_err|]. intros x _. simpl. destruct (volume_is_valid _); [apply np_ok|apply np_err]. Qed.
Lemma tame_try {A B} (x : rd A) (f : A -> rd B) g : tame x -> (forall a, tame (f a)) -> tame g -> tame (rtry x f g).
Proof.
  intros HX HF HG. induction x as [r|o n k IH]; [destruct r as [a|e|p|]; [apply HF|exact HG|destruct HX; exists p; reflexivity|apply np_fuel]|].
  destruct HX as [H1 H2]. split; [intros e; apply IH, H1|]. intros b L. apply IH, H2, L.
Qed.
Lemma tam_probe os : tame (l_probe os).
Proof. induction os as [|o os IH]; [apply np_err|]. apply tame_try; [apply tam_volume|intros; apply np_ok|exact IH]. Qed.

Lemma c162_calm {S} (D : ldev S) base : answers D -> forall s,
  ~ panics (snd (live D s (l_probe XDVD_OFFSETS))) /\ ~ panics (snd (live D s (l_volume base)))
  /\ (forall v, ~ panics (snd (live D s (l_root_dirent base v))))
  /\ (forall fuel r path, ~ only_slashes path -> ~ panics (snd (live D s (l_path fuel base r path))))
  /\ (forall fuel r, ~ panics (snd (live D s (l_walk fuel base r))))
  /\ (forall fuel r, ~ panics (snd (live D s (l_tree fuel base r))))
  /\ (forall x, ~ panics (snd (live D s (l_data base x))))
  /\ (forall x n o, ~ panics (snd (live D s (l_data_at base x n o))))
  /\ (forall H fuel v, ~ panics (snd (live D s (l_checksum H fuel base v)))).
Proof.
  intros HD s. split; [apply tame_run, tam_probe; exact HD|]. split; [apply tame_run, tam_volume; exact HD|]. split; [intros; apply tame_run, tam_root; exact HD|].
  split; [intros; apply tame_run, tam_path; assumption|]. split; [intros; apply tame_run, tam_walk; exact HD|]. split; [intros; apply tame_run, tam_tree; exact HD|].
  split; [intros; apply tame_run, tam_data; exact HD|]. split; [intros; apply tame_run, tam_data_at; exact HD|]. intros; apply tame_run, tam_checksum; exact HD.
Qed.

(** ** Scanning ends *)
Fixpoint yields {A} (P : A -> Prop) (x : rd A) : Prop :=
  match x with
  | Done (Ok a) => P a
  | Done OutOfFuel => False
  | Done _ => True
  | Ask o n k => (forall e, yields P (k (Err e))) /\ forall b, yields P (k (Ok b))
  end.
Lemma yields_bind {A B} (P : A -> Prop) (Q : B -> Prop) (x : rd A) (f : A -> rd B) : yields P x -> (forall a, P a -> yields Q (f a)) -> yields Q (rbind x f).
Proof.
  intros HX HF. induction x as [r|o n k IH]; [destruct r; simpl in *; auto|]. destruct HX as [H1 H2]. split; [intros e; apply IH, H1|intros b; apply IH, H2].
Qed.
Lemma yields_run {S A} (D : ldev S) (P : A -> Prop) (x : rd A) : answers D -> yields P x -> forall s, snd (live D s x) <> OutOfFuel.
Proof.
  intros HD. induction x as [r|o n k IH]; intros HX s; [destruct r; simpl in *; congruence|]. destruct HX as [H1 H2]. simpl. pose proof (HD s o n) as H.
  destruct (D s o n) as [s' b]. simpl in H. destruct H as [(b' & -> & L)|[e ->]]; apply IH; auto.
Qed.
Definition left_of (s : scan) : N := 2048 * (s_end s - s_sector s) - s_offset s.
Definition fine (s : scan) : Prop := s_offset s < 2048.
Lemma yields_next_sector b s : s_sector s < s_end s -> fine s -> yields (fun s' => fine s' /\ left_of s' < left_of s /\ s_end s' = s_end s /\ s_sector s' = s_sector s + 1) (l_next_sector b s).
Proof.
  intros L F. unfold l_next_sector. cbv zeta.
  assert (K : forall buf, let s' := mkScan (s_sector s + 1) buf 0 (s_end s) in fine s' /\ left_of s' < left_of s /\ s_end s' = s_end s /\ s_sector s' = s_sector s + 1).
  { intros buf. unfold fine, left_of in *. simpl. lia. }
  destruct (s_end s <=? s_sector s + 1); [apply K|]. apply (yields_bind (fun _ => True)); [split; simpl; auto|]. intros a _. apply K.
Qed.
Definition moves (s : scan) (x : option dentry * scan) : Prop := match x with (Some _, s') => fine s' /\ left_of s' < left_of s | (None, _) => True end.
Lemma yields_next_loop b fuel : forall s, s_sector s < s_end s -> fine s -> s_end s - s_sector s <= N.of_nat fuel -> yields (moves s) (l_next_loop fuel b s).
Proof.
  induction fuel as [|fuel IH]; intros s L F K; [lia|]. cbn [l_next_loop]. apply (yields_bind (fun _ => s_offset s + 14 < 2048)).
  { unfold rassert. destruct (N.ltb_spec (s_offset s + 14) SECTOR_SIZE); simpl; auto. }
  intros _ A. destruct (deserialize_dirent_node _ _) as [e|].
  - cbv zeta. set (off := s_offset s + 14 + d_namelen (d_dirent (e_node e))). set (off' := off + (4 - off mod 4) mod 4).
    apply (yields_bind (fun _ => off <= 2048)). { unfold rassert. fold off. destruct (N.leb_spec off SECTOR_SIZE); simpl; auto. }
    intros _ B. assert (M : s_offset s < off') by (unfold off', off; lia).
    destruct (N.leb_spec SECTOR_SIZE (off' + 14)) as [G|G]; change SECTOR_SIZE with 2048 in G.
    + apply (yields_bind (fun s' => fine s' /\ left_of s' < left_of s)); [|intros a H; exact H].
      unfold l_next_sector. cbn [s_sector s_end s_buf]. cbv zeta.
      assert (Q : forall buf, let s' := mkScan (s_sector s + 1) buf 0 (s_end s) in fine s' /\ left_of s' < left_of s).
      { intros buf. unfold fine, left_of in *. simpl. lia. }
      destruct (s_end s <=? s_sector s + 1); [apply Q|]. apply (yields_bind (fun _ => True)); [split; simpl; auto|]. intros a _. apply Q.
    + simpl. unfold fine, left_of in *. simpl. lia.
  - destruct (N.ltb_spec (s_sector s + 1) (s_end s)) as [G|G]; [|exact I].
    apply (yields_bind _ _ _ _ (yields_next_sector b s L F)). intros s' (F' & L' & E' & S'). assert (Y : yields (moves s') (l_next_loop fuel b s')) by (apply IH; [rewrite E', S'; exact G|exact F'|rewrite E', S'; lia]).
    revert Y. generalize (l_next_loop fuel b s'). intros x. induction x as [[[[e|] s''] | | |]|o n k IHk]; simpl; auto.
    + unfold moves. intuition lia.
    + intros [H1 H2]. auto.
Qed.
Lemma yields_collect b fuel : forall s, fine s -> left_of s < N.of_nat fuel -> yields (fun _ => True) (l_collect fuel b s).
Proof.
  induction fuel as [|fuel IH]; intros s F K; [lia|]. cbn [l_collect]. unfold l_next. destruct (N.leb_spec (s_end s) (s_sector s)) as [G|G]; [exact I|].
  apply (yields_bind (moves s)). { apply yields_next_loop; [exact G|exact F|]. unfold left_of, fine in *. lia. }
  intros [[e|] s'] M; [|exact I]. destruct M as [F' L']. apply (yields_bind (fun _ => True)); [apply IH; [exact F'|lia]|]. intros es _. exact I.
Qed.
Lemma yields_scan b fuel r : r_size r + 4096 < N.of_nat fuel -> yields (fun _ => True) (l_scan fuel b r).
Proof.
  intros K. unfold l_scan, l_scan_start. destruct (region_is_empty r).
  { apply (yields_bind (fun s => s = mkScan 0 (fill 2048 xff) 0 0)); [reflexivity|]. intros s ->. apply yields_collect; unfold fine, left_of; simpl; lia. }
  apply (yields_bind (fun s => fine s /\ left_of s <= r_size r + 2047)).
  - apply (yields_bind (fun _ => True)); [unfold region_offset; destruct (_ <=? _); exact I|]. intros o _. apply (yields_bind (fun _ => True)); [split; simpl; auto|].
    intros x _. unfold fine, left_of. simpl. split; [lia|]. pose proof (N.mul_div_le (r_size r + 2047) 2048). lia.
  - intros s [F L]. apply yields_collect; [exact F|lia].
Qed.
Lemma c162_scan {S} (D : ldev S) base r fuel : answers D -> r_size r + 4096 < N.of_nat fuel -> forall s, snd (live D s (l_scan fuel base r)) <> OutOfFuel.
Proof. intros HD K. eapply yields_run; [exact HD|]. apply yields_scan, K. Qed.
