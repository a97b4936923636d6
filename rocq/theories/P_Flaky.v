(** Proofs about sources that fail (C122 to C125). *)
From Verif Require Import M_Base M_Util M_Layout M_Avl M_Sector M_Dirtab M_Read M_Img M_Dev M_Trie M_Xfs M_Check M_Cli.
From Verif Require Import S_Avl S_Codec S_Table S_Read S_Img S_Flaky.
From Verif Require Import P_Base P_Layout P_Unpack.
From Coq Require Import Init.Byte.
Local Open Scope N_scope.

Section Weak.
Context (d' d : dev) (H : fails_more d' d).

Lemma soi_refl {A} (r : res rerr A) : same_or_io r r.
Proof. left. reflexivity. Qed.
Lemma soi_bind {A B} (x' x : res rerr A) (k' k : A -> res rerr B) :
  same_or_io x' x -> (forall a, same_or_io (k' a) (k a)) -> same_or_io (bind x' k') (bind x k).
Proof.
  intros [->|[e ->]] K; [|right; exists e; reflexivity].
  destruct x; cbn [bind]; try (left; reflexivity). apply K.
Qed.
Lemma soi_io o n : same_or_io (io (d' o n)) (io (d o n)).
Proof. destruct (H o n) as [->|[e ->]]; [left; reflexivity|right; exists e; reflexivity]. Qed.

Ltac go := repeat first
  [ match goal with |- same_or_io ?x ?x => apply soi_refl end
  | match goal with |- same_or_io (io _) (io _) => apply soi_io end
  | match goal with |- same_or_io (bind _ _) (bind _ _) => apply soi_bind; [|intros] end
  | match goal with |- same_or_io (match ?x with _ => _ end) (match ?x with _ => _ end) => destruct x end
  | match goal with |- same_or_io (if ?x then _ else _) (if ?x then _ else _) => destruct x end ].

Lemma read_dirent_soi o : same_or_io (read_dirent d' o) (read_dirent d o).
Proof. unfold read_dirent. go. Qed.
Lemma root_dirent_soi v : same_or_io (root_dirent d' v) (root_dirent d v).
Proof. unfold root_dirent. go. apply read_dirent_soi. Qed.
Lemma find_loop_soi fuel r name : forall o, same_or_io (find_loop fuel d' r name o) (find_loop fuel d r name o).
Proof.
  induction fuel as [|fuel IH]; intros o; cbn [find_loop]; [apply soi_refl|].
  apply soi_bind; [apply read_dirent_soi|]. intros a. go; apply IH.
Qed.
Lemma find_dirent_soi fuel r name : same_or_io (find_dirent fuel d' r name) (find_dirent fuel d r name).
Proof. unfold find_dirent. go. apply find_loop_soi. Qed.
Lemma walk_segments_soi fuel segs : forall r, same_or_io (walk_segments fuel d' r segs) (walk_segments fuel d r segs).
Proof.
  induction segs as [|s segs IH]; intros r; cbn [walk_segments]; [apply soi_refl|].
  apply soi_bind; [apply find_dirent_soi|]. intros a. destruct segs; [apply soi_refl|]. go. apply IH.
Qed.
Lemma walk_path_soi fuel r p : same_or_io (walk_path fuel d' r p) (walk_path fuel d r p).
Proof. unfold walk_path. go. apply walk_segments_soi. Qed.
Lemma walk_loop_soi fuel r : forall st es, same_or_io (walk_loop fuel d' r st es) (walk_loop fuel d r st es).
Proof.
  induction fuel as [|fuel IH]; intros st es; destruct st as [|o st]; cbn [walk_loop]; try apply soi_refl.
  apply soi_bind; [apply soi_refl|]. intros a. apply soi_bind; [apply read_dirent_soi|]. intros [e|]; apply IH.
Qed.
Lemma walk_dirent_tree_soi fuel r : same_or_io (walk_dirent_tree fuel d' r) (walk_dirent_tree fuel d r).
Proof. unfold walk_dirent_tree. go. apply walk_loop_soi. Qed.
Lemma file_tree_loop_soi fuel : forall st out, same_or_io (file_tree_loop fuel d' st out) (file_tree_loop fuel d st out).
Proof.
  induction fuel as [|fuel IH]; intros st out; destruct st as [|[p t] st]; cbn [file_tree_loop]; try apply soi_refl.
  apply soi_bind; [apply walk_dirent_tree_soi|]. intros a. apply IH.
Qed.
Lemma file_tree_soi fuel r : same_or_io (file_tree fuel d' r) (file_tree fuel d r).
Proof. apply file_tree_loop_soi. Qed.
Lemma next_sector_soi s : same_or_io (next_sector d' s) (next_sector d s).
Proof. unfold next_sector. cbv zeta. go. Qed.
Lemma next_loop_soi fuel : forall s, same_or_io (next_loop fuel d' s) (next_loop fuel d s).
Proof.
  induction fuel as [|fuel IH]; intros s; cbn [next_loop]; [apply soi_refl|].
  cbv zeta. go; try apply next_sector_soi. apply IH.
Qed.
Lemma next_entry_soi fuel s : same_or_io (next_entry fuel d' s) (next_entry fuel d s).
Proof. unfold next_entry. go. apply next_loop_soi. Qed.
Lemma scan_dirent_tree_soi r : same_or_io (scan_dirent_tree d' r) (scan_dirent_tree d r).
Proof. unfold scan_dirent_tree. go. Qed.
Lemma collect_scan_soi fuel : forall s, same_or_io (collect_scan fuel d' s) (collect_scan fuel d s).
Proof.
  induction fuel as [|fuel IH]; intros s; cbn [collect_scan]; [apply soi_refl|].
  apply soi_bind; [apply next_entry_soi|]. intros [[e|] s2]; go. apply IH.
Qed.
Lemma scan_all_soi fuel r : same_or_io (scan_all fuel d' r) (scan_all fuel d r).
Proof. unfold scan_all. apply soi_bind; [apply scan_dirent_tree_soi|]. intros. apply collect_scan_soi. Qed.
Lemma read_data_soi x buf : same_or_io (read_data d' x buf) (read_data d x buf).
Proof. unfold read_data. go. Qed.
Lemma read_data_all_soi x : same_or_io (read_data_all d' x) (read_data_all d x).
Proof. unfold read_data_all. cbv zeta. go. Qed.
Lemma read_data_offset_soi x size off : same_or_io (read_data_offset d' x size off) (read_data_offset d x size off).
Proof. unfold read_data_offset. cbv zeta. go. Qed.
Lemma checksum_soi Hash fuel v : same_or_io (checksum Hash fuel d' v) (checksum Hash fuel d v).
Proof.
  unfold checksum. apply soi_bind; [apply file_tree_soi|]. intros tree. apply soi_bind; [|intros; apply soi_refl].
  generalize (@nil byte). induction (checksum_map tree) as [|x l IH]; intros h; cbn [foldM]; [apply soi_refl|].
  apply soi_bind; [|intros; apply IH]. unfold checksum_step. cbv zeta. go. apply read_data_all_soi.
Qed.
Lemma read_volume_weak : read_volume d' = read_volume d \/ read_volume d' = Err InvalidVolume.
Proof.
  unfold read_volume. destruct (H (SECTOR_SIZE * 32) 2048) as [->|[e ->]]; [left; reflexivity|right; reflexivity].
Qed.

(** ** Outputs *)
Lemma soc_refl o : same_or_cut o o.
Proof. left. reflexivity. Qed.
Lemma soc_try {A} (x' x : res rerr A) k' k : same_or_io x' x -> (forall a, same_or_cut (k' a) (k a)) -> same_or_cut (try x' k') (try x k).
Proof.
  intros [->|[e ->]] K; [destruct x; cbn [try]; try apply soc_refl; apply K|].
  right. split; [exists e; reflexivity|]. exists (fst (try x k)). reflexivity.
Qed.
Lemma soc_say l o' o : same_or_cut o' o -> same_or_cut (say l o') (say l o).
Proof. intros [->|[[e E] [rest R]]]; [apply soc_refl|]. right. split; [exists e; exact E|]. exists rest. cbn [say fst]. rewrite R. reflexivity. Qed.
Lemma soc_andthen a' a b' b : same_or_cut a' a -> same_or_cut b' b -> same_or_cut (andthen a' b') (andthen a b).
Proof.
  intros [->|[[e E] [rest R]]] B.
  - unfold andthen. destruct (snd a); try apply soc_refl. destruct B as [->|[[e E] [rest R]]]; [apply soc_refl|].
    right. cbn [fst snd]. split; [exists e; exact E|]. exists rest. rewrite R, app_assoc. reflexivity.
  - right. unfold andthen. rewrite E. cbn [fst snd]. split; [exists e; exact E|].
    destruct (snd a); cbn [fst]; rewrite R; [exists (rest ++ fst b); symmetry; apply app_assoc|exists rest; reflexivity..].
Qed.
Lemma ls_scan_soc fuel : forall s, same_or_cut (ls_scan fuel d' s) (ls_scan fuel d s).
Proof.
  induction fuel as [|fuel IH]; intros s; cbn [ls_scan]; [apply soc_refl|].
  apply soc_try; [apply next_entry_soi|]. intros [[e|] s2]; cbn [fst snd]; [apply soc_say, IH|apply soc_refl].
Qed.
Lemma md5_file_dirent_soi Hash e : same_or_io (md5_file_dirent Hash d' e) (md5_file_dirent Hash d e).
Proof. unfold md5_file_dirent. apply soi_bind; [apply read_data_all_soi|]. intros; apply soi_refl. Qed.
Lemma md5_file_tree_soc Hash tree base : same_or_cut (md5_file_tree Hash d' tree base) (md5_file_tree Hash d tree base).
Proof.
  induction tree as [|[dir e] tree IH]; cbn [md5_file_tree]; [apply soc_refl|].
  apply soc_try; [apply md5_file_dirent_soi|]. intros sum. apply soc_say, IH.
Qed.
Lemma select_table_soi fuel v path : same_or_io (select_table fuel d' v path) (select_table fuel d v path).
Proof. unfold select_table. go. apply walk_path_soi. Qed.
Lemma md5_path_soc Hash fuel v path : same_or_cut (md5_from_file_path Hash fuel d' v path) (md5_from_file_path Hash fuel d v path).
Proof.
  unfold md5_from_file_path. apply soc_try; [apply walk_path_soi|]. intros e. destruct (dirent_table _).
  - apply soc_try; [apply file_tree_soi|]. intros; apply md5_file_tree_soc.
  - apply soc_try; [apply md5_file_dirent_soi|]. intros; apply soc_refl.
Qed.
Lemma print_subdir_soc m fuel r : same_or_cut (print_subdir m fuel d' r) (print_subdir m fuel d r).
Proof. unfold print_subdir. apply soc_try; [apply walk_dirent_tree_soi|]. intros; apply soc_refl. Qed.
End Weak.

(** ** Files *)
Lemma file_more a b : fails_more (file_dev a) (file_dev (a ++ b)).
Proof.
  intros o n. unfold file_dev. destruct (n =? 0); [left; reflexivity|]. rewrite len_app.
  destruct (N.leb_spec (o + n) (len a)) as [L|L]; [|right; exists UnexpectedEof; reflexivity]. left.
  destruct (N.leb_spec (o + n) (len a + len b)) as [L2|L2]; [|lia]. f_equal. symmetry. apply slice_app_l, L.
Qed.
Lemma file_cut k f : fails_more (file_dev (firstn k f)) (file_dev f).
Proof. pose proof (file_more (firstn k f) (skipn k f)) as F. rewrite firstn_skipn in F. exact F. Qed.
Lemma offset_more d' d base : fails_more d' d -> fails_more (offset_dev d' base) (offset_dev d base).
Proof. intros F o n. apply F. Qed.

(** ** Finding the partition *)
Lemma rv_far a o : len a < o + 67584 -> read_volume (offset_dev (file_dev a) o) = Err InvalidVolume.
Proof.
  intros L. unfold read_volume, offset_dev, file_dev. change (2048 =? 0) with false. cbn [map_err].
  destruct (N.leb_spec (SECTOR_SIZE * 32 + o + 2048) (len a)) as [K|K]; [unfold SECTOR_SIZE in K; lia|reflexivity].
Qed.
Lemma rv_near a b o : o + 67584 <= len a -> read_volume (offset_dev (file_dev (a ++ b)) o) = read_volume (offset_dev (file_dev a) o).
Proof.
  intros L. unfold read_volume, offset_dev, file_dev. change (2048 =? 0) with false. cbn [map_err]. rewrite len_app.
  destruct (N.leb_spec (SECTOR_SIZE * 32 + o + 2048) (len a)) as [K|K]; [|unfold SECTOR_SIZE in K; lia].
  destruct (N.leb_spec (SECTOR_SIZE * 32 + o + 2048) (len a + len b)) as [K2|K2]; [|lia].
  cbn [map_err bind]. rewrite slice_app_l by exact K. reflexivity.
Qed.
Lemma rv_two a o : (exists v, read_volume (offset_dev (file_dev a) o) = Ok v) \/ read_volume (offset_dev (file_dev a) o) = Err InvalidVolume.
Proof.
  unfold read_volume. unfold offset_dev, file_dev. change (2048 =? 0) with false. cbn [map_err].
  destruct (_ <=? _); cbn [map_err bind]; [|right; reflexivity]. destruct (volume_is_valid _); [left; eexists; reflexivity|right; reflexivity].
Qed.
Lemma probe_two a os : (exists o, probe (file_dev a) os = Ok o) \/ probe (file_dev a) os = Err InvalidVolume.
Proof.
  induction os as [|o os IH]; cbn [probe]; [right; reflexivity|].
  destruct (rv_two a o) as [[v ->]| ->]; [left; exists o; reflexivity|exact IH].
Qed.
Lemma probe_far a os : Forall (fun o => len a < o + 67584) os -> probe (file_dev a) os = Err InvalidVolume.
Proof. induction 1 as [|o os F _ IH]; cbn [probe]; [reflexivity|]. rewrite rv_far by exact F. exact IH. Qed.

Lemma append_opens a b base : offset_wrapper_new (file_dev a) = Ok base -> base = 0 \/ 405866496 <= len a -> offset_wrapper_new (file_dev (a ++ b)) = Ok base.
Proof.
  unfold offset_wrapper_new. intros A [->|L].
  - unfold XDVD_OFFSETS in *. cbn [probe] in *. destruct (rv_two a 0) as [[v V]|V].
    + destruct (N.lt_ge_cases (len a) (0 + 67584)) as [K|K]; [rewrite rv_far in V by exact K; discriminate|].
      rewrite rv_near, V by exact K. reflexivity.
    + rewrite V in A. destruct (rv_two a 405798912) as [[v1 V1]|V1]; rewrite V1 in A; [discriminate|].
      destruct (rv_two a 265879552) as [[v2 V2]|V2]; rewrite V2 in A; [discriminate|].
      destruct (rv_two a 34078720) as [[v3 V3]|V3]; rewrite V3 in A; discriminate.
  - rewrite <- A. unfold XDVD_OFFSETS. cbn [probe]. rewrite !rv_near by lia. reflexivity.
Qed.
Lemma cut_opens_0 a b : offset_wrapper_new (file_dev (a ++ b)) = Ok 0 -> offset_wrapper_new (file_dev a) = Ok 0 \/ offset_wrapper_new (file_dev a) = Err InvalidVolume.
Proof.
  unfold offset_wrapper_new. intros A. destruct (N.lt_ge_cases (len a) 67584) as [K|K].
  - right. apply probe_far. unfold XDVD_OFFSETS. repeat constructor; lia.
  - left. unfold XDVD_OFFSETS in *. cbn [probe] in *. rewrite rv_near in A by lia.
    destruct (rv_two a 0) as [[v V]|V]; rewrite V in *; [reflexivity|].
    destruct (rv_two (a ++ b) 405798912) as [[v1 V1]|V1]; rewrite V1 in A; [discriminate|].
    destruct (rv_two (a ++ b) 265879552) as [[v2 V2]|V2]; rewrite V2 in A; [discriminate|].
    destruct (rv_two (a ++ b) 34078720) as [[v3 V3]|V3]; rewrite V3 in A; discriminate.
Qed.

Lemma volume_of_base a base : offset_wrapper_new (file_dev a) = Ok base -> exists v, read_volume (offset_dev (file_dev a) base) = Ok v.
Proof.
  unfold offset_wrapper_new. generalize XDVD_OFFSETS. intros os. induction os as [|o os IH]; cbn [probe]; [discriminate|].
  destruct (rv_two a o) as [[v V]|V]; rewrite V; [intros E; injection E as <-; exists v; exact V|exact IH].
Qed.
Lemma command_soc2 f : read_command f -> forall a b ba bb, offset_wrapper_new (file_dev a) = Ok ba -> offset_wrapper_new (file_dev b) = Ok bb ->
  fails_more (offset_dev (file_dev a) ba) (offset_dev (file_dev b) bb) -> same_or_cut (f a) (f b).
Proof.
  intros C a b ba bb A B F. destruct (volume_of_base _ _ A) as [v0 V0].
  destruct C; unfold cmd_ls, cmd_tree, cmd_info, cmd_md5, cmd_checksum, checksum_single, open_image;
    rewrite A, B; cbn [bind try];
    (destruct (read_volume_weak _ _ F) as [V|V]; [rewrite V|congruence]).
  - apply soc_try; [apply soi_refl|]. intros v. apply soc_try; [apply select_table_soi, F|]. intros t. destruct scan.
    + apply soc_try; [apply scan_dirent_tree_soi, F|]. intros; apply ls_scan_soc, F.
    + apply soc_try; [apply walk_dirent_tree_soi, F|]. intros; apply soc_refl.
  - apply soc_try; [apply soi_refl|]. intros v. apply soc_try; [apply file_tree_soi, F|]. intros; apply soc_refl.
  - apply soc_try; [apply soi_refl|]. intros v. destruct entry as [path|]; [|apply soc_refl].
    destruct (str_eqb path [SLASH]); [apply print_subdir_soc, F|].
    apply soc_try; [apply walk_path_soi, F|]. intros e. apply soc_andthen; [apply soc_refl|].
    destruct (dirent_table _); [|apply soc_refl]. apply soc_say, print_subdir_soc, F.
  - apply soc_try; [apply soi_refl|]. intros v. destruct path as [path|]; [apply md5_path_soc, F|].
    apply soc_try; [apply file_tree_soi, F|]. intros; apply md5_file_tree_soc, F.
  - apply soc_andthen; [|apply soc_refl]. apply soc_try; [apply soi_refl|]. intros v. apply soc_try; [apply checksum_soi, F|]. intros; apply soc_refl.
Qed.

Lemma command_soc f : read_command f -> forall a b base, offset_wrapper_new (file_dev a) = Ok base -> offset_wrapper_new (file_dev b) = Ok base ->
  fails_more (file_dev a) (file_dev b) -> same_or_cut (f a) (f b).
Proof. intros C a b base A B F. eapply command_soc2; [exact C|exact A|exact B|]. apply offset_more, F. Qed.

Lemma command_closed f a : read_command f -> offset_wrapper_new (file_dev a) = Err InvalidVolume -> f a = ([], Err InvalidVolume).
Proof.
  intros C A. destruct C; unfold cmd_ls, cmd_tree, cmd_info, cmd_md5, cmd_checksum, checksum_single, open_image; rewrite A; reflexivity.
Qed.

Lemma c123_lemma f file k base : read_command f -> offset_wrapper_new (file_dev file) = Ok base ->
  base = 0 \/ offset_wrapper_new (file_dev (firstn k file)) = Ok base ->
  f (firstn k file) = ([], Err InvalidVolume) \/ same_or_cut (f (firstn k file)) (f file).
Proof.
  intros C A B. assert (D : offset_wrapper_new (file_dev (firstn k file)) = Ok base \/ offset_wrapper_new (file_dev (firstn k file)) = Err InvalidVolume).
  { destruct B as [->|B]; [|left; exact B]. apply (cut_opens_0 _ (skipn k file)). rewrite firstn_skipn. exact A. }
  destruct D as [D|D]; [right|left; apply command_closed; assumption].
  eapply command_soc; [exact C|exact D|exact A|apply file_cut].
Qed.

Lemma c124_lemma f file more base : read_command f -> offset_wrapper_new (file_dev file) = Ok base -> base = 0 \/ 405866496 <= len file ->
  (forall e, snd (f file) <> Err (IOError e)) -> f (file ++ more) = f file.
Proof.
  intros C A B N. pose proof (append_opens _ more _ A B) as A2.
  destruct (command_soc f C _ _ _ A A2 (file_more _ _)) as [E|[[e E] _]]; [symmetry; exact E|destruct (N _ E)].
Qed.

(** ** Packing *)
Definition pleq {D A} (x' x : prog D A) : Prop := forall s s1 a, x' s = (s1, Ok a) -> x s = (s1, Ok a).
Lemma pleq_refl {D A} (x : prog D A) : pleq x x.
Proof. intros s s1 a E. exact E. Qed.
Lemma pleq_bind {D A B} (x' x : prog D A) (k' k : A -> prog D B) : pleq x' x -> (forall a, pleq (k' a) (k a)) -> pleq (pbind x' k') (pbind x k).
Proof.
  intros X K s s1 b. unfold pbind. destruct (x' s) as [s2 r] eqn:E. destruct r as [a|e|p|]; try discriminate.
  rewrite (X _ _ _ E). apply K.
Qed.
Lemma pleq_lift {D A} (r' r : res werr A) : (forall a, r' = Ok a -> r = Ok a) -> @pleq D A (plift r') (plift r).
Proof. intros R s s1 a. unfold plift. intros E. injection E as <- E. rewrite (R _ E). reflexivity. Qed.

Section Packing.
Context {D : Type} (fs' fs : fsys D) (F : fs_fails_more fs' fs).
Lemma pcopy_pleq p out size : pleq (pcopy fs' p out size) (pcopy fs p out size).
Proof.
  intros [d evs] s1 a. unfold pcopy. cbn [fst snd]. destruct (copy_in fs' p d 0 out size) as [d2 r] eqn:E.
  intros Q. injection Q as <- Q. destruct r; try discriminate. rewrite (proj2 F _ _ _ _ _ _ _ E). cbn in *. congruence.
Qed.
Lemma add_listing_pleq p l : forall secs, pleq (add_listing fs' p l secs) (add_listing fs p l secs).
Proof.
  induction l as [|e l IH]; intros secs; cbn [add_listing]; [apply pleq_refl|]. cbv zeta.
  apply pleq_bind; [apply pleq_refl|]. intros _. destruct (l_is_dir e); [apply IH|].
  apply pleq_bind; [apply pcopy_pleq|]. intros _. apply IH.
Qed.
Lemma add_tables_pleq m (W : wdev D) ts : forall nf secs, pleq (add_tables m W fs' ts nf secs) (add_tables m W fs ts nf secs).
Proof.
  induction ts as [|[p w] ts IH]; intros nf secs; cbn [add_tables]; [apply pleq_refl|].
  apply pleq_bind; [apply pleq_refl|]. intros sec. apply pleq_bind; [apply pleq_refl|]. intros [t nf2].
  apply pleq_bind; [apply pleq_refl|]. intros _. apply pleq_bind; [apply pleq_refl|]. intros _.
  apply pleq_bind; [apply add_listing_pleq|]. intros. apply IH.
Qed.
Lemma create_rest_pleq m (W : wdev D) dt : pleq (create_rest m W fs' dt) (create_rest m W fs dt).
Proof.
  unfold create_rest. apply pleq_bind; [apply pleq_refl|]. intros ts. apply pleq_bind; [apply pleq_refl|]. intros [rp rd].
  apply pleq_bind; [apply pleq_refl|]. intros rs. apply pleq_bind; [apply pleq_refl|]. intros [nf sec].
  apply pleq_bind; [apply add_tables_pleq|]. intros _. apply pleq_refl.
Qed.
Lemma dir_tree_loop_pleq fuel : forall dirs out, pleq (dir_tree_loop fuel fs' dirs out) (dir_tree_loop fuel fs dirs out).
Proof.
  induction fuel as [|fuel IH]; intros [|p dirs] out; cbn [dir_tree_loop]; try apply pleq_refl.
  apply pleq_bind; [apply pleq_lift|intros; apply pleq_bind; [apply pleq_refl|intros; apply IH]].
  intros a. destruct (read_dir fs' p) eqn:E; cbn [map_err]; try discriminate. rewrite (proj1 F _ _ E). exact (fun H => H).
Qed.
Lemma create_pleq fuel m (W : wdev D) : pleq (create_xdvdfs_image fuel m W fs') (create_xdvdfs_image fuel m W fs).
Proof. rewrite !create_split. apply pleq_bind; [apply dir_tree_loop_pleq|]. intros. apply create_rest_pleq. Qed.
End Packing.

Section Repack.
Context {D : Type} (d' d : dev) (F : fails_more d' d) (W : wdev D).
Lemma soi_ok {A} (r' r : res rerr A) a : same_or_io r' r -> r' = Ok a -> r = Ok a.
Proof. intros [->|[e ->]]; congruence. Qed.
Lemma list_loop_leq fuel : forall s node node' es, list_loop fuel d' s node = (node', Ok es) -> list_loop fuel d s node = (node', Ok es).
Proof.
  induction fuel as [|fuel IH]; intros s node node' es; cbn [list_loop]; [discriminate|].
  destruct (next_entry (S fuel) d' s) as [[o s2]|x|x|] eqn:E; try discriminate.
  rewrite (soi_ok _ _ _ (next_entry_soi _ _ F _ _) E). destruct o as [e|]; [|exact (fun H => H)].
  destruct (insert_tail node (name_str e) e _) as [n2|x|x|]; try discriminate.
  destruct (list_loop fuel d' s2 n2) as [n3 r] eqn:L. destruct r as [es2|x|x|]; cbn [bind]; try discriminate.
  rewrite (IH _ _ _ _ L). exact (fun H => H).
Qed.
Lemma xfs_read_dir_leq fuel v c p c' es : xfs_read_dir fuel d' v c p = (c', Ok es) -> xfs_read_dir fuel d v c p = (c', Ok es).
Proof.
  unfold xfs_read_dir. cbv zeta. generalize (match p with [] => Ok (v_root v, c) | _ :: _ => let* o := lookup_node (E:=rerr) c p in match match o with Some n => record n | None => None end with None => Err NoDirent | Some (e, sub) => match dirent_table (d_dirent (e_node e)) with None => Err IsNotDirectory | Some r => Ok (r, sub) end end end).
  intros [[r node]|x|x|]; cbn [bind]; try discriminate.
  destruct (scan_dirent_tree d' r) as [s|x|x|] eqn:E; cbn [bind]; try discriminate.
  rewrite (soi_ok _ _ _ (scan_dirent_tree_soi _ _ F _) E). cbn [bind].
  destruct (list_loop fuel d' s node) as [n2 r2] eqn:L. intros Q. injection Q as <- ->. rewrite (list_loop_leq _ _ _ _ _ L). reflexivity.
Qed.
Lemma xfs_dir_loop_leq fuel sf v : forall c dirs out, pleq (D:=D) (xfs_dir_loop fuel sf d' v c dirs out) (xfs_dir_loop fuel sf d v c dirs out).
Proof.
  induction fuel as [|fuel IH]; intros c [|p dirs] out; cbn [xfs_dir_loop]; try apply pleq_refl.
  destruct (xfs_read_dir sf d' v c p) as [c2 r] eqn:E. destruct r as [es|x|x|]; try (intros s s1 a Q; discriminate Q).
  rewrite (xfs_read_dir_leq _ _ _ _ _ _ E). cbn [map_err]. apply pleq_bind; [apply pleq_refl|]. intros l. apply pleq_bind; [apply pleq_refl|]. intros _. apply IH.
Qed.
Lemma rw_copy_loop_leq fuel oi oo size : forall copied dest dest' n, rw_copy_loop fuel d' W oi oo size copied dest = (dest', Ok n) -> rw_copy_loop fuel d W oi oo size copied dest = (dest', Ok n).
Proof.
  induction fuel as [|fuel IH]; intros copied dest dest' n; cbn [rw_copy_loop]; destruct (copied <? size); try (exact (fun H => H)); cbv zeta.
  destruct (F (oi + copied) (N.min COPY_BUFFER (size - copied))) as [E|[e E]]; rewrite E; [|discriminate].
  destruct (d (oi + copied) _) as [b|x|x|]; cbn [map_err]; try discriminate.
  destruct (dev_write W dest (oo + copied) b) as [dest2 r]. destruct r; cbn [map_err]; try discriminate. apply IH.
Qed.
Lemma xfs_fs_leq c : fs_fails_more (xfs_fs (default_copier d' W) c) (xfs_fs (default_copier d W) c).
Proof.
  split; cbn [xfs_fs read_dir copy_in]; [discriminate|]. intros p dest i o n dest' r. unfold xfs_copy.
  destruct (trie_get c p) as [[e|]|x|x|]; try discriminate; cbv zeta.
  destruct (_ =? 0); [exact (fun H => H)|].
  destruct (map_err FilesystemReadErr _) as [off|x|x|]; try discriminate.
  unfold default_copier, rw_copy. destruct (rw_copy_loop _ d' W off o _ 0 dest) as [d2 r2] eqn:E.
  intros Q. injection Q as <- Q. destruct r2; try discriminate. rewrite (rw_copy_loop_leq _ _ _ _ _ _ _ _ E). rewrite Q. reflexivity.
Qed.
Lemma repack_leq fuel m : pleq (repack fuel m W d' (default_copier d' W)) (repack fuel m W d (default_copier d W)).
Proof.
  unfold repack. destruct (read_volume_weak _ _ F) as [V|V]; rewrite V; [|intros s s1 a Q; discriminate Q].
  destruct (read_volume d) as [v|x|x|]; try (intros s s1 a Q; discriminate Q).
  unfold create_from_volume. apply pleq_bind; [apply xfs_dir_loop_leq|]. intros [c dt]. apply create_rest_pleq, xfs_fs_leq.
Qed.
End Repack.

(** ** Two partitions in one file *)
Lemma skipn_repeat {A} (x : A) k : forall n, skipn k (repeat x n) = repeat x (n - k).
Proof. induction k as [|k IH]; intros [|n]; cbn [skipn repeat Nat.sub]; auto. Qed.
Lemma firstn_repeat {A} (x : A) k : forall n, (k <= n)%nat -> firstn k (repeat x n) = repeat x k.
Proof. induction k as [|k IH]; intros [|n] L; cbn [firstn repeat]; auto; [lia|]. rewrite IH by lia. reflexivity. Qed.
Lemma slice_fill {A} (x : A) n o k : o + k <= n -> slice (fill n x) o k = fill k x.
Proof. intros L. unfold slice, fill. rewrite skipn_repeat, firstn_repeat by lia. reflexivity. Qed.
Lemma rv_zero n o b : o + 67584 <= n -> read_volume (offset_dev (file_dev (fill n x00 ++ b)) o) = Err InvalidVolume.
Proof.
  intros L. rewrite rv_near by (rewrite len_fill; exact L).
  unfold read_volume, offset_dev, file_dev. change (2048 =? 0) with false. rewrite len_fill.
  destruct (N.leb_spec (SECTOR_SIZE * 32 + o + 2048) n) as [K|K]; [|reflexivity].
  rewrite slice_fill by exact K. vm_compute. reflexivity.
Qed.
Lemma dev_after a b o n : offset_dev (file_dev (a ++ b)) (len a) o n = file_dev b o n.
Proof.
  unfold offset_dev, file_dev. destruct (n =? 0); [reflexivity|]. rewrite len_app.
  destruct (N.leb_spec (o + n) (len b)) as [L|L]; destruct (N.leb_spec (o + len a + n) (len a + len b)) as [K|K]; try lia; [|reflexivity].
  rewrite slice_app_r by lia. f_equal. f_equal. lia.
Qed.
Lemma rv_ext d1 d2 : (forall o n, d1 o n = d2 o n) -> read_volume d1 = read_volume d2.
Proof. intros E. unfold read_volume. rewrite E. reflexivity. Qed.

Lemma base_in a base : offset_wrapper_new (file_dev a) = Ok base -> In base XDVD_OFFSETS.
Proof.
  unfold offset_wrapper_new. generalize XDVD_OFFSETS. induction l as [|o os IH]; cbn [probe]; [discriminate|].
  destruct (rv_two a o) as [[v ->]| ->]; [intros E; injection E as <-; left; reflexivity|right; auto].
Qed.
(** C126. *)
Lemma c126_lemma f before img after : read_command f -> offset_wrapper_new (file_dev img) = Ok 0 ->
  offset_wrapper_new (file_dev (before ++ img ++ after)) = Ok (len before) -> (forall e, snd (f img) <> Err (IOError e)) ->
  f (before ++ img ++ after) = f img.
Proof.
  intros C A B N. destruct (command_soc2 f C img (before ++ img ++ after) 0 (len before) A B) as [E|[[e E] _]]; [|symmetry; exact E|destruct (N _ E)].
  intros o n. rewrite dev_after. unfold offset_dev. rewrite N.add_0_r. apply file_more.
Qed.

Lemma rv_after a b o : len a = o -> read_volume (offset_dev (file_dev (a ++ b)) o) = read_volume (file_dev b).
Proof. intros <-. apply rv_ext. apply dev_after. Qed.
Lemma two_partitions z g A B va vb : (forall o b, o + 67584 <= len z -> read_volume (offset_dev (file_dev (z ++ b)) o) = Err InvalidVolume) ->
  read_volume (file_dev A) = Ok va -> read_volume (file_dev B) = Ok vb -> len z = 34078720 -> len A < 100000000 ->
  len (z ++ A ++ g) = 405798912 ->
  offset_wrapper_new (file_dev (z ++ A ++ g ++ B)) = Ok 405798912 /\ offset_wrapper_new (file_dev (z ++ A)) = Ok 34078720.
Proof.
  intros Z VA VB L S P. unfold offset_wrapper_new, XDVD_OFFSETS. split; cbn [probe]; rewrite Z by lia.
  - replace (z ++ A ++ g ++ B) with ((z ++ A ++ g) ++ B) by (rewrite <- !app_assoc; reflexivity).
    rewrite (rv_after _ B _ P), VB. reflexivity.
  - assert (Q : len (z ++ A) = len z + len A) by apply len_app. rewrite !rv_far by lia. rewrite (rv_after _ A _ L), VA. reflexivity.
Qed.
Lemma fill_zero n : forall o b, o + 67584 <= len (fill n x00) -> read_volume (offset_dev (file_dev (fill n x00 ++ b)) o) = Err InvalidVolume.
Proof. intros o b L. apply rv_zero. rewrite len_fill in L. exact L. Qed.

(** Truncating a file with two partitions. *)
Lemma two_listings f A B outA outB : read_command f -> offset_wrapper_new (file_dev A) = Ok 0 -> offset_wrapper_new (file_dev B) = Ok 0 ->
  len A < 100000000 -> f A = (outA, Ok tt) -> f B = (outB, Ok tt) ->
  exists file k, f file = (outB, Ok tt) /\ f (firstn k file) = (outA, Ok tt).
Proof.
  intros C VA VB S FA FB. destruct (volume_of_base _ _ VA) as [va RA]. destruct (volume_of_base _ _ VB) as [vb RB].
  assert (E0 : forall x, read_volume (offset_dev (file_dev x) 0) = read_volume (file_dev x)) by (intros x; apply rv_ext; intros o n; unfold offset_dev; rewrite N.add_0_r; reflexivity).
  rewrite E0 in RA, RB.
  pose proof (fill_zero 34078720) as Z. assert (L : len (fill 34078720 x00) = 34078720) by apply len_fill.
  assert (P : len (fill 34078720 x00 ++ A ++ fill (405798912 - 34078720 - len A) x00) = 405798912) by (rewrite !len_app, !len_fill; lia).
  revert Z L P. generalize (fill 34078720 x00) as z, (fill (405798912 - 34078720 - len A) x00) as g. intros z g Z L P.
  destruct (two_partitions z g A B va vb Z RA RB L S P) as [OB OA].
  exists (z ++ A ++ g ++ B), (length (z ++ A)). split.
  - pose proof (c126_lemma f (z ++ A ++ g) B [] C VB) as Q. rewrite app_nil_r, P in Q. rewrite <- !app_assoc in Q.
    rewrite Q; [exact FB|exact OB|]. rewrite FB. discriminate.
  - replace (firstn (length (z ++ A)) (z ++ A ++ g ++ B)) with (z ++ A)
      by (rewrite (app_assoc z A), firstn_app, Nat.sub_diag, firstn_all, firstn_O, app_nil_r; reflexivity).
    pose proof (c126_lemma f z A [] C VA) as Q. rewrite app_nil_r, L in Q. rewrite Q; [exact FA|exact OA|]. rewrite FA. discriminate.
Qed.
Lemma second_partition f A B outB : read_command f -> offset_wrapper_new (file_dev A) = Ok 0 -> offset_wrapper_new (file_dev B) = Ok 0 ->
  len A < 100000000 -> f B = (outB, Ok tt) -> exists file, offset_wrapper_new (file_dev file) = Ok 405798912 /\ f file = (outB, Ok tt).
Proof.
  intros C VA VB S FB. destruct (volume_of_base _ _ VA) as [va RA]. destruct (volume_of_base _ _ VB) as [vb RB].
  assert (E0 : forall x, read_volume (offset_dev (file_dev x) 0) = read_volume (file_dev x)) by (intros x; apply rv_ext; intros o n; unfold offset_dev; rewrite N.add_0_r; reflexivity).
  rewrite E0 in RA, RB.
  pose proof (fill_zero 34078720) as Z. assert (L : len (fill 34078720 x00) = 34078720) by apply len_fill.
  assert (P : len (fill 34078720 x00 ++ A ++ fill (405798912 - 34078720 - len A) x00) = 405798912) by (rewrite !len_app, !len_fill; lia).
  revert Z L P. generalize (fill 34078720 x00) as z, (fill (405798912 - 34078720 - len A) x00) as g. intros z g Z L P.
  destruct (two_partitions z g A B va vb Z RA RB L S P) as [OB OA].
  exists (z ++ A ++ g ++ B). split; [exact OB|].
  pose proof (c126_lemma f (z ++ A ++ g) B [] C VB) as Q. rewrite app_nil_r, P in Q. rewrite <- !app_assoc in Q.
  rewrite Q; [exact FB|exact OB|]. rewrite FB. discriminate.
Qed.
