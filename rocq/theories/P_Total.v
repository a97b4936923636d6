(** Proofs about commands on untrusted images (C127, C128). *)
From Verif Require Import M_Base M_Util M_Layout M_Read M_Check M_Cli M_Unpack M_Host.
From Verif Require Import S_Avl S_Codec S_Table S_Read S_Cycle S_Total.
From Verif Require Import P_Base P_Read P_Path P_Find P_Witness P_Term P_Cycle P_Sectors P_Cli P_Unpack.
From Coq Require Import Init.Byte.
Local Open Scope N_scope.

(** ** Panics *)
Definition np {E A} (r : res E A) : Prop := ~ panics r.
Lemma np_ok {E A} (a : A) : np (Ok a : res E A).
Proof. intros [p Q]. discriminate. Qed.
Lemma np_err {E A} (e : E) : np (Err e : res E A).
Proof. intros [p Q]. discriminate. Qed.
Lemma np_fuel {E A} : np (OutOfFuel : res E A).
Proof. intros [p Q]. discriminate. Qed.
Lemma np_bind {E A B} (x : res E A) (k : A -> res E B) : np x -> (forall a, np (k a)) -> np (bind x k).
Proof. intros X K. destruct x; cbn [bind]; [apply K|apply np_err| |apply np_fuel]. destruct X. exists p. reflexivity. Qed.
Lemma np_ok_or {E A} (o : option A) (e : E) : np (ok_or o e).
Proof. destruct o; [apply np_ok|apply np_err]. Qed.
Lemma np_offset r o : np (region_offset r o).
Proof. unfold region_offset. destruct (_ <=? _); [apply np_err|apply np_ok]. Qed.

Section Calm.
Context (d : dev) (C : calm d).
Lemma np_io o n : np (io (d o n)).
Proof. destruct (C o n) as [[b ->]|[e ->]]; [apply np_ok|apply np_err]. Qed.

Ltac go := repeat first
  [ match goal with |- np (Ok _) => apply np_ok end
  | match goal with |- np (Err _) => apply np_err end
  | match goal with |- np OutOfFuel => apply np_fuel end
  | match goal with |- np (io _) => apply np_io end
  | match goal with |- np (ok_or _ _) => apply np_ok_or end
  | match goal with |- np (region_offset _ _) => apply np_offset end
  | match goal with |- np (bind _ _) => apply np_bind; [|intros] end
  | match goal with |- np (match ?x with _ => _ end) => destruct x end
  | match goal with |- np (if ?x then _ else _) => destruct x end ].

Lemma read_dirent_np o : np (read_dirent d o).
Proof. unfold read_dirent. go. Qed.
Lemma find_loop_np fuel r name : forall o, np (find_loop fuel d r name o).
Proof.
  induction fuel as [|fuel IH]; intros o; cbn [find_loop]; [apply np_fuel|].
  apply np_bind; [apply read_dirent_np|]. intros a. go; apply IH.
Qed.
Lemma find_dirent_np fuel r name : np (find_dirent fuel d r name).
Proof. unfold find_dirent. go. apply find_loop_np. Qed.
Lemma walk_segments_np fuel segs : segs <> [] -> forall r, np (walk_segments fuel d r segs).
Proof.
  induction segs as [|s segs IH]; intros N r; [destruct N; reflexivity|]. cbn [walk_segments].
  apply np_bind; [apply find_dirent_np|]. intros a. destruct segs; [apply np_ok|]. apply np_bind; [apply np_ok_or|]. intros t. apply IH. discriminate.
Qed.
Lemma walk_path_np fuel r path : panics (walk_path fuel d r path) <-> only_slashes path.
Proof.
  split.
  - intros P. destruct (path_cases path) as [(n & ->)|(segs & HP)].
    + destruct n as [|[|n]]; [destruct P as [p P]; discriminate P..|]. exists n. reflexivity.
    + exfalso. rewrite (walk_path_segs _ _ _ _ _ HP) in P. revert P. apply walk_segments_np. destruct HP as (_ & _ & _ & _ & K & _). exact K.
  - intros [n ->]. exists PUnreachable. unfold walk_path. cbn [repeat]. change (str_eqb (47 :: 47 :: repeat 47 n) [SLASH]) with false. cbv iota.
    change (47 :: 47 :: repeat 47 n) with (repeat 47 (S (S n))). rewrite <- (app_nil_r (repeat 47 (S (S n)))), trim_repeat. reflexivity.
Qed.
Lemma walk_loop_np fuel r : forall st es, np (walk_loop fuel d r st es).
Proof.
  induction fuel as [|fuel IH]; intros st es; destruct st as [|o st]; cbn [walk_loop]; try apply np_ok; try apply np_fuel.
  apply np_bind; [apply np_offset|]. intros a. apply np_bind; [apply read_dirent_np|]. intros [e|]; apply IH.
Qed.
Lemma walk_dirent_tree_np fuel r : np (walk_dirent_tree fuel d r).
Proof. unfold walk_dirent_tree. destruct (region_is_empty r); [apply np_ok|apply walk_loop_np]. Qed.
Lemma file_tree_loop_np fuel : forall st out, np (file_tree_loop fuel d st out).
Proof.
  induction fuel as [|fuel IH]; intros st out; destruct st as [|[p t] st]; cbn [file_tree_loop]; try apply np_ok; try apply np_fuel.
  apply np_bind; [apply walk_dirent_tree_np|]. intros a. apply IH.
Qed.
Lemma file_tree_np fuel r : np (file_tree fuel d r).
Proof. apply file_tree_loop_np. Qed.
Lemma read_data_all_np x : np (read_data_all d x).
Proof. unfold read_data_all. cbv zeta. go. Qed.
Lemma read_data_offset_np x size off : np (read_data_offset d x size off).
Proof. unfold read_data_offset. cbv zeta. go. Qed.
Lemma checksum_np Hash fuel v : np (checksum Hash fuel d v).
Proof.
  unfold checksum. apply np_bind; [apply file_tree_np|]. intros tree. apply np_bind; [|intros; apply np_ok].
  generalize (@nil byte). induction (checksum_map tree) as [|x l IH]; intros h; cbn [foldM]; [apply np_ok|].
  apply np_bind; [|intros; apply IH]. unfold checksum_step. cbv zeta. go. apply read_data_all_np.
Qed.
Lemma read_volume_np : np (read_volume d).
Proof.
  unfold read_volume. destruct (C (SECTOR_SIZE * 32) 2048) as [[b ->]|[e ->]]; cbn [map_err bind]; [|apply np_err].
  destruct (volume_is_valid _); [apply np_ok|apply np_err].
Qed.
Lemma select_table_np fuel v path : panics (select_table fuel d v path) -> only_slashes path.
Proof.
  unfold select_table. destruct (str_eqb path [SLASH]); [intros [p P]; discriminate P|].
  intros P. apply (walk_path_np fuel (v_root v)). destruct (walk_path fuel d (v_root v) path) as [e|e|p|]; cbn [bind] in P;
    [destruct (np_ok_or _ _ P)|destruct P as [p P]; discriminate P|exists p; reflexivity|destruct P as [p P]; discriminate P].
Qed.
End Calm.

(** ** Outputs *)
Lemma try_panics {A} (r : res rerr A) k : panics (snd (try r k)) -> panics r \/ exists a, r = Ok a /\ panics (snd (k a)).
Proof. destruct r as [a|e|p|]; cbn [try]; intros P; [right; exists a; split; [reflexivity|exact P]|destruct P as [q P]; discriminate P|left; exists p; reflexivity|destruct P as [q P]; discriminate P]. Qed.
Lemma say_all_np l : np (snd (say_all l)).
Proof. induction l as [|s l IH]; [apply np_ok|exact IH]. Qed.
Lemma andthen_panics a b : panics (snd (andthen a b)) -> panics (snd a) \/ panics (snd b).
Proof. unfold andthen. destruct (snd a) eqn:E; cbn [snd]; auto; rewrite E; auto. Qed.
Lemma open_image_calm file d : open_image file = Ok d -> calm d.
Proof. intros O. apply open_image_base in O as (base & _ & ->). apply offset_calm, file_calm. Qed.
Lemma open_image_lawful file d : open_image file = Ok d -> lawful d.
Proof. intros O. apply open_image_base in O as (base & _ & ->). apply offset_lawful, file_lawful. Qed.
Lemma open_image_np file : np (open_image file).
Proof.
  unfold open_image. apply np_bind; [|intros; apply np_ok]. unfold offset_wrapper_new. generalize XDVD_OFFSETS.
  induction l as [|o os IH]; cbn [probe]; [apply np_err|].
  pose proof (read_volume_np (offset_dev (file_dev file) o) (offset_calm _ _ (file_calm _))) as V.
  destruct (read_volume _) as [v|e|p|]; [apply np_ok|exact IH| |apply np_fuel]. destruct V. exists p. reflexivity.
Qed.

Ltac opened P :=
  apply try_panics in P as [P|(d & O & P)]; [destruct (open_image_np _ P)|];
  pose proof (open_image_calm _ _ O) as C;
  apply try_panics in P as [P|(v & V & P)]; [destruct (read_volume_np _ C P)|].

Lemma cmd_tree_np fuel name file : np (snd (cmd_tree fuel name file)).
Proof. intros P. unfold cmd_tree in P. opened P. apply try_panics in P as [P|(t & T & P)]; [exact (file_tree_np _ C _ _ P)|exact (say_all_np _ P)]. Qed.
Lemma checksum_single_np H fuel name file : np (snd (checksum_single H fuel name file)).
Proof. intros P. unfold checksum_single in P. opened P. apply try_panics in P as [P|(t & T & [p P])]; [exact (checksum_np _ C _ _ _ P)|discriminate P]. Qed.
Lemma cmd_checksum_np H fuel images : np (snd (cmd_checksum H fuel images)).
Proof. induction images as [|[name file] l IH]; cbn [cmd_checksum]; [apply np_ok|]. intros P. apply andthen_panics in P as [P|P]; [exact (checksum_single_np _ _ _ _ P)|exact (IH P)]. Qed.
Lemma cmd_ls_panics fuel file path : panics (snd (cmd_ls fuel file path false)) -> only_slashes path.
Proof.
  intros P. unfold cmd_ls in P. opened P. apply try_panics in P as [P|(t & T & P)]; [exact (select_table_np _ C _ _ _ P)|].
  apply try_panics in P as [P|(es & T2 & P)]; [destruct (walk_dirent_tree_np _ C _ _ P)|destruct (say_all_np _ P)].
Qed.
Lemma md5_tree_np H d (C : calm d) tree base : np (snd (md5_file_tree H d tree base)).
Proof.
  induction tree as [|[dir e] tree IH]; cbn [md5_file_tree]; [apply np_ok|]. intros P.
  apply try_panics in P as [P|(t & T & P)]; [|exact (IH P)]. revert P. unfold md5_file_dirent. apply np_bind; [apply read_data_all_np, C|intros; apply np_ok].
Qed.
Lemma cmd_md5_panics H fuel file path : panics (snd (cmd_md5 H fuel file path)) -> exists p, path = Some p /\ only_slashes p.
Proof.
  intros P. unfold cmd_md5 in P. opened P. destruct path as [path|].
  - exists path. split; [reflexivity|]. unfold md5_from_file_path in P. apply try_panics in P as [P|(e & T & P)]; [apply (walk_path_np d C) in P; exact P|]. exfalso.
    destruct (dirent_table _).
    + apply try_panics in P as [P|(t & T2 & P)]; [exact (file_tree_np _ C _ _ P)|exact (md5_tree_np _ _ C _ _ P)].
    + apply try_panics in P as [P|(t & T2 & [p P])]; [|discriminate P]. revert P. unfold md5_file_dirent. apply np_bind; [apply read_data_all_np, C|intros; apply np_ok].
  - exfalso. apply try_panics in P as [P|(t & T2 & P)]; [exact (file_tree_np _ C _ _ P)|exact (md5_tree_np _ _ C _ _ P)].
Qed.
Lemma child_bytes_np o : np (child_bytes Release o).
Proof. unfold child_bytes. destruct (o =? 0); [apply np_ok|]. apply np_bind; [destruct (_ <? _); apply np_ok|intros; apply np_ok]. Qed.
Lemma print_dirent_np e : np (snd (print_dirent Release e)).
Proof.
  intros P. unfold print_dirent in P. cbn [say snd] in P. apply try_panics in P as [P|(l & L & P)]; [exact (child_bytes_np _ P)|]. cbn [say snd] in P.
  apply try_panics in P as [P|(r & R & P)]; [exact (child_bytes_np _ P)|]. cbn [say snd done] in P. destruct P as [p P]; discriminate P.
Qed.
Lemma print_nodes_np es : np (snd (print_nodes Release es)).
Proof. induction es as [|e es IH]; cbn [print_nodes]; [apply np_ok|]. intros P. cbn [say snd] in P. apply andthen_panics in P as [P|P]; [exact (print_dirent_np _ P)|exact (IH P)]. Qed.
Lemma print_subdir_np d (C : calm d) fuel r : np (snd (print_subdir Release fuel d r)).
Proof. intros P. apply try_panics in P as [P|(es & T & P)]; [exact (walk_dirent_tree_np _ C _ _ P)|exact (print_nodes_np _ P)]. Qed.
Lemma cmd_info_panics fuel file entry : panics (snd (cmd_info Release fuel file entry)) -> exists p, entry = Some p /\ only_slashes p.
Proof.
  intros P. unfold cmd_info in P. opened P. destruct entry as [path|]; [|destruct P as [p P]; discriminate P].
  exists path. split; [reflexivity|]. destruct (str_eqb path [SLASH]); [destruct (print_subdir_np _ C _ _ P)|].
  apply try_panics in P as [P|(e & T & P)]; [apply (walk_path_np d C) in P; exact P|]. exfalso.
  apply andthen_panics in P as [P|P]; [exact (print_dirent_np _ P)|]. destruct (dirent_table _); [exact (print_subdir_np _ C _ _ P)|destruct P as [p P]; discriminate P].
Qed.

(** ** Unpacking *)
Definition fine {E A} (r : res E A) : Prop := match r with Ok _ | Err _ => True | _ => False end.
Lemma fine_ok {E A} (a : A) : fine (Ok a : res E A).
Proof. exact I. Qed.
Lemma fine_err {E A} (e : E) : fine (Err e : res E A).
Proof. exact I. Qed.
Lemma fine_bind {E A B} (x : res E A) (k : A -> res E B) : fine x -> (forall a, fine (k a)) -> fine (bind x k).
Proof. intros X K. destruct x; cbn [bind]; [apply K|exact I|destruct X..]. Qed.
Lemma fine_np {E A} (x : res E A) : fine x -> np x.
Proof. destruct x; intros F [q Q]; try discriminate; destruct F. Qed.
Lemma fine_real {E A} (x : res E A) : fine x -> x <> OutOfFuel.
Proof. destruct x; intros F Q; try discriminate; destruct F. Qed.
Lemma hwalk_np h cs : forall cur, fine (hwalk h cur cs).
Proof. induction cs as [|c cs IH]; intros cur; cbn [hwalk]; [apply fine_ok|]. destruct (is_dotdot c); [apply IH|]. destruct (h _) as [[]|]; [apply IH|apply fine_err..]. Qed.
Lemma hlocate_np h start cs : fine (hlocate h start cs).
Proof. unfold hlocate. destruct (split_last cs) as [[i c]|]; [|apply fine_ok]. apply fine_bind; [apply hwalk_np|]. intros a. destruct (is_dotdot c); apply fine_ok. Qed.
Definition hnp {A} (x : hprog A) : Prop := forall w, fine (snd (x w)).
Lemma hnp_bind {A B} (x : hprog A) (k : A -> hprog B) : hnp x -> (forall a, hnp (k a)) -> hnp (hbind x k).
Proof. intros X K w. unfold hbind. specialize (X w). destruct (x w) as [w' [a|e|p|]]; [apply K|apply fine_err|destruct X..]. Qed.
Lemma hnp_ret {A} (a : A) : hnp (hret a).
Proof. intros w. apply fine_ok. Qed.
Lemma mkdir_np start cs : hnp (mkdir start cs).
Proof.
  intros w. unfold mkdir. destruct (has_nul cs); [apply fine_err|]. pose proof (hlocate_np (w_fs w) start cs) as L.
  destruct (hlocate _ _ _) as [[dd [c|]]|e|p|]; [|apply fine_err..|destruct L|destruct L].
  - destruct (w_fs w _); [apply fine_err|]. destruct (_ <? _); [apply fine_err|apply fine_ok].
Qed.
Lemma mkdir_all_np start rcs : hnp (mkdir_all start rcs).
Proof.
  assert (A : forall rcs, hnp (fun w => match mkdir start (rev rcs) w with (w, Err e) => if is_dir_at (w_fs w) start (rev rcs) then (w, Ok tt) else (w, Err e) | r => r end)).
  { intros l w. pose proof (mkdir_np start (rev l) w) as M. destruct (mkdir _ _ w) as [w' [a|e|p|]]; try exact M. destruct (is_dir_at _ _ _); [apply fine_ok|apply fine_err]. }
  induction rcs as [|c rcs IH]; intros w; cbn [mkdir_all].
  - pose proof (mkdir_np start (rev []) w) as M. destruct (mkdir _ _ w) as [w' [a|e|p|]]; try exact M. destruct e; try exact M; destruct (is_dir_at _ _ _); first [apply fine_ok|apply fine_err].
  - pose proof (mkdir_np start (rev (c :: rcs)) w) as M. destruct (mkdir _ _ w) as [w' [a|e|p|]]; try exact M.
    destruct e; try (destruct (is_dir_at _ _ _); first [apply fine_ok|apply fine_err]).
    apply (hnp_bind (mkdir_all start rcs) (fun _ w => match mkdir start (rev (c :: rcs)) w with (w, Err e) => if is_dir_at (w_fs w) start (rev (c :: rcs)) then (w, Ok tt) else (w, Err e) | r => r end)); [exact IH|]. intros _. apply A.
Qed.
Lemma open_trunc_np cwd s : hnp (open_trunc cwd s).
Proof.
  intros w. unfold open_trunc. destruct (has_nul _); [apply fine_err|]. destruct s as [|c0 s]; [apply fine_err|]. destruct (dirlike _); [apply fine_err|].
  pose proof (hlocate_np (w_fs w) (hstart cwd (c0 :: s)) (pcomps (c0 :: s))) as L.
  destruct (hlocate _ _ _) as [[dd [c|]]|e|p|]; [|apply fine_err..|destruct L|destruct L].
  - destruct (w_fs w _) as [[]|]; [apply fine_err| |]; (destruct (_ <? _); [apply fine_err|apply fine_ok]).
Qed.
Lemma copy_file_np cwd file base s r : hnp (copy_file cwd file base s r).
Proof.
  unfold copy_file. apply hnp_bind; [apply open_trunc_np|]. intros p. destruct (region_is_empty r); [apply hnp_ret|].
  intros w. unfold write_new. cbv zeta. destruct (_ <? _); [apply fine_err|apply fine_ok].
Qed.
Lemma copyout_loop_np cwd file base dest tree : hnp (copyout_loop cwd file base dest tree).
Proof.
  induction tree as [|[dir e] tree IH]; cbn [copyout_loop]; [apply hnp_ret|]. cbv zeta. apply hnp_bind.
  - unfold create_dir_all. destruct (pjoin _ _); [apply hnp_ret|apply mkdir_all_np].
  - intros _. apply hnp_bind; [|intros _; exact IH]. destruct (is_directory _).
    + unfold create_dir. intros w. destruct (pjoin _ _); [apply fine_err|apply mkdir_np].
    + destruct (_ =? 0); [apply hnp_ret|apply copy_file_np].
Qed.
Lemma uhost_np x : np (snd x) -> np (snd (uhost x)).
Proof. destruct x as [w [a|e|p|]]; cbn; intros N; [apply np_ok|apply np_err| |apply np_fuel]. destruct N. exists p. reflexivity. Qed.
Lemma uread_panics {A} (r : res rerr A) w k : panics (snd (uread r w k)) -> panics r \/ exists a, r = Ok a /\ panics (snd (k a)).
Proof. destruct r as [a|e|p|]; cbn [uread]; intros P; [right; exists a; split; [reflexivity|exact P]|destruct P as [q P]; discriminate P|left; exists p; reflexivity|destruct P as [q P]; discriminate P]. Qed.
Lemma copyout_directory_np fuel cwd file base dest r w : np (snd (copyout_directory fuel cwd file base dest r w)).
Proof.
  intros P. apply uread_panics in P as [P|(t & T & P)]; [exact (file_tree_np _ (offset_calm _ _ (file_calm _)) _ _ P)|].
  revert P. apply uhost_np, fine_np, copyout_loop_np.
Qed.
Lemma wrapper_np file : np (offset_wrapper_new (file_dev file)).
Proof. pose proof (open_image_np file) as O. unfold open_image in O. destruct (offset_wrapper_new _) as [b|e|p|]; [apply np_ok|apply np_err| |apply np_fuel]. destruct O. exists p. reflexivity. Qed.
Lemma cmd_unpack_panics fuel cwd ip file target w : panics (snd (cmd_unpack fuel cwd ip file target w)) <-> target = None /\ file_name ip = None.
Proof.
  unfold cmd_unpack, unpack_target. split.
  - destruct target as [t|]; [|destruct (file_name ip) as [n|]; cbn [unwrap bind]; [|auto]]; intros P; exfalso;
      (apply uread_panics in P as [P|(b & B & P)]; [exact (wrapper_np _ P)|]; apply uread_panics in P as [P|(v & V & P)]; [exact (read_volume_np _ (offset_calm _ _ (file_calm _)) P)|exact (copyout_directory_np _ _ _ _ _ _ _ P)]).
  - intros [-> ->]. exists PUnwrap. reflexivity.
Qed.
Lemma cmd_copyout_panics fuel cwd file src dest w : panics (snd (cmd_copyout fuel cwd file src dest w)) -> only_slashes src.
Proof.
  unfold cmd_copyout. intros P. apply uread_panics in P as [P|(b & B & P)]; [destruct (wrapper_np _ P)|].
  pose proof (offset_calm _ b (file_calm file)) as C. apply uread_panics in P as [P|(v & V & P)]; [destruct (read_volume_np _ C P)|].
  destruct (str_eqb src [SLASH]); [destruct (copyout_directory_np _ _ _ _ _ _ _ P)|].
  apply uread_panics in P as [P|(e & E & P)]; [apply (walk_path_np _ C) in P; exact P|]. exfalso. destruct (dirent_table _); [exact (copyout_directory_np _ _ _ _ _ _ _ P)|].
  revert P. apply uhost_np, fine_np, copy_file_np.
Qed.

(** ** Termination *)
Lemma rret {A} (a : A) : returns (fun _ => a) a.
Proof. exists 0%nat. reflexivity. Qed.
Lemma ends_try {A} (g : nat -> res rerr A) (k : nat -> A -> output) :
  terminates g -> (forall a, returns g (Ok a) -> ends (fun fuel => k fuel a)) -> ends (fun fuel => try (g fuel) (k fuel)).
Proof.
  intros (o & N & G) K. destruct o as [a|e|p|]; [| | |destruct N; reflexivity].
  - destruct (K a G) as (b & r & R & [n1 H1]). destruct G as [n2 H2]. exists b, r. split; [exact R|]. exists (Nat.max n1 n2).
    intros fuel L. rewrite H2 by lia. apply H1. lia.
  - destruct G as [n2 H2]. exists [], (Err e). split; [discriminate|]. exists n2. intros fuel L. rewrite H2 by lia. reflexivity.
  - destruct G as [n2 H2]. exists [], (Panic p). split; [discriminate|]. exists n2. intros fuel L. rewrite H2 by lia. reflexivity.
Qed.
Lemma term_const {E A} (x : res E A) : x <> OutOfFuel -> terminates (fun _ => x).
Proof. intros N. exists x. split; [exact N|apply rret]. Qed.
Lemma ends_const {B E A} (x : B * res E A) : snd x <> OutOfFuel -> ends (fun _ => x).
Proof. intros N. destruct x as [b r]. exists b, r. split; [exact N|apply rret]. Qed.
Lemma read_volume_real d : real d -> read_volume d <> OutOfFuel.
Proof.
  intros R. unfold read_volume. specialize (R (SECTOR_SIZE * 32) 2048). destruct (d _ _); cbn [map_err bind]; try discriminate; [destruct (volume_is_valid _); discriminate|congruence].
Qed.
Lemma say_all_real l : snd (say_all l) <> OutOfFuel.
Proof. induction l; [discriminate|assumption]. Qed.
Lemma foldM_real {E A B} (f : A -> B -> res E A) : (forall a b, f a b <> OutOfFuel) -> forall l a, foldM f a l <> OutOfFuel.
Proof. intros F. induction l as [|b l IH]; intros a; cbn [foldM]; [discriminate|]. specialize (F a b). destruct (f a b); cbn [bind]; try discriminate; [apply IH|congruence]. Qed.
Lemma read_data_all_real d x : real d -> read_data_all d x <> OutOfFuel.
Proof.
  intros R. unfold read_data_all. cbv zeta. destruct (_ =? 0); [discriminate|]. unfold region_offset. destruct (_ <=? _); cbn [bind]; [discriminate|].
  match goal with |- io (d ?a ?b) <> _ => specialize (R a b); destruct (d a b) end; cbn; try discriminate. congruence.
Qed.
Lemma terminates_bind {E A B} (g : nat -> res E A) (k : A -> res E B) : terminates g -> (forall a, k a <> OutOfFuel) -> terminates (fun fuel => bind (g fuel) k).
Proof.
  intros (o & N & [n G]) K. exists (bind o k). split.
  - destruct o; cbn [bind]; try discriminate; [apply K|congruence].
  - exists n. intros fuel L. rewrite G by exact L. reflexivity.
Qed.

Section Ends.
Context (file : list byte) (d : dev) (root : region) (P : partition file d root).
Lemma part_opened : exists v, open_image file = Ok d /\ read_volume d = Ok v /\ root = v_root v /\ calm d /\ lawful d /\ real d.
Proof.
  destruct P as (v & O & V & ->). exists v. pose proof (open_image_calm _ _ O) as C. ssplit; auto; [eapply open_image_lawful; eauto|apply calm_real, C].
Qed.

Lemma tree_ends name : ~ cyclic_tree d root -> ends (fun fuel => cmd_tree fuel name file).
Proof.
  destruct part_opened as (v & O & V & -> & C & L & R). intros A. unfold cmd_tree. rewrite O. cbn [try]. rewrite V. cbn [try].
  apply (ends_try (fun fuel => file_tree fuel d (v_root v)) (fun _ tree => _)); [apply c32_tree_ends; assumption|].
  intros t _. apply ends_const, say_all_real.
Qed.
Lemma checksum_ends H name : ~ cyclic_tree d root -> ends (fun fuel => checksum_single H fuel name file).
Proof.
  destruct part_opened as (v & O & V & -> & C & L & R). intros A. unfold checksum_single. rewrite O. cbn [try]. rewrite V. cbn [try].
  apply (ends_try (fun fuel => checksum H fuel d v) (fun _ sum => _)); [|intros; apply ends_const; discriminate].
  unfold checksum. apply terminates_bind; [apply c32_tree_ends; assumption|]. intros t.
  pose proof (foldM_real (checksum_step d)) as F. specialize (F (fun h x => ltac:(unfold checksum_step; cbv zeta; destruct (is_directory _); [discriminate|]; pose proof (read_data_all_real d (d_dirent (e_node (snd x))) R); destruct (read_data_all d _); cbn; congruence)) (checksum_map t) []).
  destruct (foldM _ _ _); cbn; congruence.
Qed.
Lemma md5_tree_ends H tree base : ends (fun _ : nat => md5_file_tree H d tree base).
Proof.
  apply ends_const. destruct part_opened as (v & O & V & E & C & L & R). induction tree as [|[dir e] tree IH]; cbn [md5_file_tree]; [discriminate|].
  unfold md5_file_dirent. pose proof (read_data_all_real d (d_dirent (e_node e)) R). destruct (read_data_all d _); cbn [bind try say snd]; try discriminate; [exact IH|congruence].
Qed.
Lemma md5_ends H : ~ cyclic_tree d root -> ends (fun fuel => cmd_md5 H fuel file None).
Proof.
  destruct part_opened as (v & O & V & E & C & L & R). intros A. unfold cmd_md5. rewrite O. cbn [try]. rewrite V. cbn [try].
  apply (ends_try (fun fuel => file_tree fuel d (v_root v)) (fun _ tree => _)); [apply c32_tree_ends; subst; assumption|]. intros t _. apply md5_tree_ends.
Qed.
Lemma walk_path_ends path : straight d root path -> terminates (fun fuel => walk_path fuel d root path).
Proof.
  destruct part_opened as (v & O & V & E & C & L & R). intros St. destruct (path_cases path) as [(n & ->)|(segs & HP)].
  - destruct n as [|[|n]]; [apply (term_const (Err NoDirent)); discriminate..|]. exists (Panic PUnreachable). split; [|exists 0%nat; intros fuel _].
    2: { unfold walk_path. cbn [repeat]. change (str_eqb (47 :: 47 :: repeat 47 n) [SLASH]) with false. cbv iota.
         change (47 :: 47 :: repeat 47 n) with (repeat 47 (S (S n))). rewrite <- (app_nil_r (repeat 47 (S (S n)))), trim_repeat. reflexivity. }
    discriminate.
  - apply (proj2 (c32_lookup_lemma d L R root segs path HP)). apply St, HP.
Qed.
Lemma returned_path path e : returns (fun fuel => walk_path fuel d root path) (Ok e) -> is_dir e = true -> table_at d root path (region_of e).
Proof.
  destruct part_opened as (v & O & V & E & C & L & R). intros [n W] D. destruct (c30_lemma d root path n e L (W n (le_n n))) as (segs & HP & HD).
  right. exists segs, e. auto.
Qed.
Lemma select_ends v path : root = v_root v -> straight d root path -> terminates (fun fuel => select_table fuel d v path).
Proof.
  intros Ev S. unfold select_table. rewrite <- Ev. destruct (str_eqb path [SLASH]); [apply term_const; discriminate|].
  apply terminates_bind; [apply walk_path_ends, S|]. intros e. destruct (dirent_table _); discriminate.
Qed.
Lemma selected_at v path r : root = v_root v -> returns (fun fuel => select_table fuel d v path) (Ok r) -> table_at d root path r.
Proof.
  intros Ev [n W]. unfold select_table in W. destruct (str_eqb path [SLASH]) eqn:S.
  - specialize (W n (le_n n)). injection W as <-. left. apply str_eqb_spec in S. auto.
  - destruct part_opened as (v' & O & V & E & C & L & R). specialize (W n (le_n n)). rewrite <- Ev in W.
    destruct (walk_path n d root path) as [e|e|p|] eqn:Ew; cbn [bind] in W; try discriminate. unfold dirent_table in W.
    destruct (is_directory _) eqn:D; [|discriminate]. injection W as <-. destruct (c30_lemma d root path n e L Ew) as (segs & HP & HD).
    right. exists segs, e. auto.
Qed.
Lemma ls_ends path : straight d root path -> (forall r, table_at d root path r -> ~ cyclic_table d r) -> ends (fun fuel => cmd_ls fuel file path false).
Proof.
  intros S A. destruct part_opened as (v & O & V & E & C & L & R). unfold cmd_ls. rewrite O. cbn [try]. rewrite V. cbn [try].
  apply (ends_try (fun fuel => select_table fuel d v path) (fun fuel t => _)); [apply select_ends; assumption|]. intros r T.
  apply (ends_try (fun fuel => walk_dirent_tree fuel d r) (fun fuel es => say_all (map name_str es))).
  - apply walk_table_ends; [exact L|exact R|]. apply A. eapply selected_at; eauto.
  - intros es _. apply ends_const. induction (map name_str es); [discriminate|assumption].
Qed.
Lemma info_ends m path : straight d root path -> (forall r, table_at d root path r -> ~ cyclic_table d r) -> ends (fun fuel => cmd_info m fuel file (Some path)).
Proof.
  intros S A. destruct part_opened as (v & O & V & E & C & L & R). unfold cmd_info. rewrite O. cbn [try]. rewrite V. cbn [try].
  assert (DR : forall e, snd (print_dirent m e) <> OutOfFuel).
  { intros e. assert (CB : forall o, child_bytes m o <> OutOfFuel) by (intros o; unfold child_bytes; destruct (o =? 0); [discriminate|]; destruct (_ <? _); [discriminate|]; destruct m; discriminate).
    unfold print_dirent. cbn [say snd]. pose proof (CB (d_left (e_node e))). destruct (child_bytes m (d_left (e_node e))); cbn [try say snd]; try discriminate; [|congruence].
    pose proof (CB (d_right (e_node e))). destruct (child_bytes m (d_right (e_node e))); cbn [try say snd]; try discriminate; congruence. }
  assert (NR : forall es, snd (print_nodes m es) <> OutOfFuel).
  { induction es as [|e es IH]; cbn [print_nodes]; [discriminate|]. cbn [say snd]. unfold andthen. specialize (DR e). destruct (snd (print_dirent m e)) eqn:Q; cbn [snd say]; try exact IH; try (rewrite Q; discriminate). congruence. }
  assert (SR : forall r, table_at d root path r -> ends (fun fuel => print_subdir m fuel d r)).
  { intros r T. unfold print_subdir. apply (ends_try (fun fuel => walk_dirent_tree fuel d r) (fun fuel es => print_nodes m es)); [apply walk_table_ends; auto|].
    intros es _. apply ends_const, NR. }
  destruct (str_eqb path [SLASH]) eqn:Q.
  - apply str_eqb_spec in Q. apply SR. left. split; [exact Q|symmetry; exact E].
  - rewrite <- E. apply (ends_try (fun fuel => walk_path fuel d root path) (fun fuel e => _)); [apply walk_path_ends, S|]. intros e W.
    unfold andthen. specialize (DR e). destruct (print_dirent m e) as [out [[]|x|x|]] eqn:Qd; cbn [snd fst] in *; try (apply ends_const; cbn; congruence).
    unfold dirent_table. destruct (is_directory _) eqn:D.
    + destruct (SR _ (returned_path _ _ W D)) as (b & r & N & [n G]). exists (out ++ [] :: b), r. split; [exact N|]. exists n. intros fuel Lf. specialize (G fuel Lf). unfold region_of in G. rewrite G. reflexivity.
    + apply ends_const. discriminate.
Qed.
Lemma unpack_ends cwd ip target w : ~ cyclic_tree d root -> ends (fun fuel => cmd_unpack fuel cwd ip file target w).
Proof.
  destruct part_opened as (v & O & V & E & C & L & R). intros A. unfold cmd_unpack. apply open_image_base in O as (base & B & ->).
  destruct (unpack_target ip target) as [dest|x|x|] eqn:Q; [|apply ends_const; discriminate..|].
  - rewrite B. cbn [uread]. rewrite V. cbn [uread]. unfold copyout_directory. rewrite E in A.
    destruct (c32_tree_ends _ L R _ A) as (o & N & [n G]). destruct o as [t|x|x|]; [| | |congruence].
    + destruct (uhost (copyout_loop cwd file base dest t w)) as [w' r] eqn:U. exists w', r. split; [|exists n; intros fuel Lf; rewrite G by exact Lf; exact U].
      assert (HN : snd (copyout_loop cwd file base dest t w) <> OutOfFuel) by apply fine_real, copyout_loop_np. unfold uhost in U. injection U as _ <-. destruct (snd (copyout_loop _ _ _ _ _ _)); cbn; congruence.
    + exists w, (Err (URead x)). split; [discriminate|]. exists n. intros fuel Lf. rewrite G by exact Lf. reflexivity.
    + exists w, (Panic x). split; [discriminate|]. exists n. intros fuel Lf. rewrite G by exact Lf. reflexivity.
  - unfold unpack_target in Q. destruct target; [discriminate|]. destruct (file_name ip); discriminate.
Qed.
Lemma md5_path_ends H path : straight d root path -> (forall r, table_at d root path r -> ~ cyclic_tree d r) -> ends (fun fuel => cmd_md5 H fuel file (Some path)).
Proof.
  intros S A. destruct part_opened as (v & O & V & E & C & L & R). unfold cmd_md5. rewrite O. cbn [try]. rewrite V. cbn [try]. unfold md5_from_file_path. rewrite <- E.
  apply (ends_try (fun fuel => walk_path fuel d root path) (fun fuel e => _)); [apply walk_path_ends, S|]. intros e W. unfold dirent_table. destruct (is_directory _) eqn:D.
  - apply (ends_try (fun fuel => file_tree fuel d (region_of e)) (fun _ tree => md5_file_tree H d tree path)); [|intros; apply md5_tree_ends].
    apply c32_tree_ends; [exact L|exact R|]. apply A, returned_path; assumption.
  - apply ends_const. unfold md5_file_dirent. pose proof (read_data_all_real d (d_dirent (e_node e)) R). destruct (read_data_all d _); cbn; congruence.
Qed.
Lemma directory_ends cwd base dest r w : d = offset_dev (file_dev file) base -> ~ cyclic_tree d r -> ends (fun fuel => copyout_directory fuel cwd file base dest r w).
Proof.
  destruct part_opened as (v & O & V & E & C & L & R). intros D A. unfold copyout_directory. rewrite <- D.
  destruct (c32_tree_ends _ L R _ A) as (o & N & [n G]). destruct o as [t|x|x|]; [| | |congruence].
  - destruct (uhost (copyout_loop cwd file base dest t w)) as [w' r'] eqn:U. exists w', r'. split; [|exists n; intros fuel Lf; rewrite G by exact Lf; exact U].
    assert (HN : snd (copyout_loop cwd file base dest t w) <> OutOfFuel) by apply fine_real, copyout_loop_np. unfold uhost in U. injection U as _ <-. destruct (snd (copyout_loop _ _ _ _ _ _)); cbn; congruence.
  - exists w, (Err (URead x)). split; [discriminate|]. exists n. intros fuel Lf. rewrite G by exact Lf. reflexivity.
  - exists w, (Panic x). split; [discriminate|]. exists n. intros fuel Lf. rewrite G by exact Lf. reflexivity.
Qed.
Lemma copyout_ends cwd src dest w : straight d root src -> (forall r, table_at d root src r -> ~ cyclic_tree d r) -> ends (fun fuel => cmd_copyout fuel cwd file src dest w).
Proof.
  intros S A. destruct part_opened as (v & O & V & E & C & L & R). unfold cmd_copyout. apply open_image_base in O as (base & B & D). rewrite B. cbn [uread]. cbv zeta. rewrite <- D, V. cbn [uread]. rewrite <- E.
  destruct (str_eqb src [SLASH]) eqn:Q.
  - apply str_eqb_spec in Q. apply directory_ends; [exact D|]. apply A. left. auto.
  - destruct (walk_path_ends src S) as (o & N & [n G]). destruct o as [e|x|x|]; [| | |congruence].
    + unfold dirent_table. destruct (is_directory (d_dirent (e_node e))) eqn:F.
      * destruct (directory_ends cwd base dest (region_of e) w D) as (b & r & Nr & [n2 G2]); [apply A, returned_path; [exists n; exact G|exact F]|].
        exists b, r. split; [exact Nr|]. exists (Nat.max n n2). intros fuel Lf. rewrite G by lia. cbn [uread]. unfold dirent_table. rewrite F. apply G2. lia.
      * pose proof (fine_real _ (copy_file_np cwd file base dest (d_region (d_dirent (e_node e))) w)) as HN.
        exists (fst (uhost (copy_file cwd file base dest (d_region (d_dirent (e_node e))) w))), (snd (uhost (copy_file cwd file base dest (d_region (d_dirent (e_node e))) w))).
        split; [unfold uhost; cbn [snd]; destruct (snd (copy_file _ _ _ _ _ _)); cbn; congruence|].
        exists n. intros fuel Lf. rewrite G by exact Lf. cbn [uread]. unfold dirent_table. rewrite F. apply surjective_pairing.
    + exists w, (Err (URead x)). split; [discriminate|]. exists n. intros fuel Lf. rewrite G by exact Lf. reflexivity.
    + exists w, (Panic x). split; [discriminate|]. exists n. intros fuel Lf. rewrite G by exact Lf. reflexivity.
Qed.
End Ends.

(** * A witness without cycles *)
Lemma zigzag_partition : S_Total.partition zigzag_img (offset_dev (file_dev zigzag_img) 0) root33.
Proof.
  assert (B : offset_wrapper_new (file_dev zigzag_img) = Ok 0) by (vm_compute; reflexivity).
  assert (T : match read_volume (offset_dev (file_dev zigzag_img) 0) with Ok v => v_root v = root33 | _ => False end) by (vm_compute; reflexivity).
  destruct (read_volume (offset_dev (file_dev zigzag_img) 0)) as [v| | |] eqn:V; try contradiction. exists v.
  split; [unfold open_image; rewrite B; reflexivity|]. split; [exact V|symmetry; exact T].
Qed.
Lemma zigzag_acyclic : ~ cyclic_tree (offset_dev (file_dev zigzag_img) 0) root33.
Proof.
  assert (T : match file_tree 9 (offset_dev (file_dev zigzag_img) 0) root33 with Ok _ => True | _ => False end) by (vm_compute; exact I).
  destruct (file_tree 9 (offset_dev (file_dev zigzag_img) 0) root33) as [l| | |] eqn:E; try contradiction.
  exact (c32_tree_success _ (offset_lawful _ _ (file_lawful _)) 9 root33 l E).
Qed.
