(** Properties C58, C66-C69, C102: the read commands of the command line tool (cmd_read.rs,
    cmd_md5.rs, cmd_info.rs). [is_image file t]: the file is an image of the tree
    [t], written by any tool, in any supported disc layout. The output of a
    command is the list of its lines and its outcome. *)
From Verif Require Import M_Base M_Util M_Layout M_Read M_Img M_Check M_Remap M_Cli.
From Verif Require Import S_Avl S_Codec S_Read S_Img S_Check S_Cli.
From Verif Require Import P_Vm.
From Verif Require Import P_Base P_Witness P_More P_Src P_Check P_Cli P_Extra.
From Coq Require Import Init.Byte Permutation Strings.String.
From Coq Require Import List.
Local Close Scope string_scope.
Local Open Scope N_scope.

(** Packing gives such images. *)
Theorem c66_packed_images : forall m t img, source t -> packs m t img -> is_image img t.
Proof. exact packed_is_image. Qed.
Print Assumptions c66_packed_images.

(** C66: ls prints the names of the selected directory, each of them once. *)
Theorem c66_ls :
  forall file t path cs, is_image file t -> selects_dir t path cs ->
  exists lines, Permutation lines (map fst cs) /\ returns (fun fuel => cmd_ls fuel file path false) (lines, Ok tt).
Proof. exact c66_lemma. Qed.
Print Assumptions c66_ls.

Theorem c66_ls_scan :
  forall m t img path cs, source t -> packs m t img -> selects_dir t path cs ->
  exists lines, Permutation lines (map fst cs) /\ returns (fun fuel => cmd_ls fuel img path true) (lines, Ok tt).
Proof. exact c66_scan. Qed.
Print Assumptions c66_ls_scan.

(** a ("hi"), S/b (empty), S/D/c ("x"). *)
Definition c66_tree : ftree :=
  FDir [(text "a", FFile [x68; x69]); (text "S", FDir [(text "b", FFile []); (text "D", FDir [(text "c", FFile [x78])])])].
Definition c66_run := create_xdvdfs_image 10 Debug file_wdev (std_fs c66_tree) ([], []).
Definition c66_img : list byte := fst (fst c66_run).
(** All runs on this image below, computed together. *)
Definition c68_hash (b : list byte) : list byte := firstn 2 (rev b).
Example c66_runs :
  cmd_ls 20 c66_img (text "/s/") false = ([text "b"; text "D"], Ok tt)
  /\ cmd_ls 20 c66_img (text "/") true = ([text "a"; text "S"], Ok tt)
  /\ cmd_ls 20 c66_img (text "a") false = ([], Err IsNotDirectory)
  /\ cmd_tree 20 (text "i") c66_img
     = ([text "/a (2 bytes)"; text "/S/ (0 bytes)"; text "/S/b (0 bytes)"; text "/S/D/ (0 bytes)"; text "/S/D/c (1 bytes)"; text "3 files, 3 bytes in i"], Ok tt)
  /\ cmd_md5 c68_hash 20 c66_img (Some (text "a")) = ([text "6968  a"], Ok tt)
  /\ cmd_md5 c68_hash 20 c66_img (Some (text "s/d")) = ([text "78  s/d/c"], Ok tt)
  /\ cmd_md5 c68_hash 20 c66_img None = ([text "6968  /a"; text "ffff  /S"; text "  /S/b"; text "ffff  /S/D"; text "78  /S/D/c"], Ok tt)
  /\ cmd_md5 c68_hash 20 c66_img (Some (text "S")) = ([text "  S/b"; text "ffff  S/D"; text "78  S//D/c"], Ok tt)
  /\ (let* v := read_volume (file_dev c66_img) in walk_path 20 (file_dev c66_img) (v_root v) (text "S//D/c")) = Err DoesNotExist
  /\ cmd_info Debug 20 c66_img (Some (text "/A"))
     = ([text "Name:                a"; text "Offset:              67584"; text "Left Child Offset:   None"; text "Right Child Offset:  16 bytes";
         text "Data Location:       Sector 34 (2 bytes)"; text "Attributes:          Archive"], Ok tt)
  /\ cmd_checksum (firstn 9) 20 [(text "x", c66_img); (text "y", c66_img)]
     = ([text "2f532f532f442f532f" ++ [9] ++ text "x"; text "2f532f532f442f532f" ++ [9] ++ text "y"], Ok tt)
  /\ cmd_info Debug 0 c66_img None = ([text "Valid:               true"; text "Creation time:       0"; text "Root Entry:          Sector 33 (32 bytes)"], Ok tt).
Proof. vm_all. Qed.
Tactic Notation "run" integer(k) := let H := fresh in pose proof c66_runs as H; do k (apply proj2 in H); first [exact (proj1 H)|exact H].
Example c66_source : source c66_tree /\ packs Debug c66_tree c66_img.
Proof.
  assert (S : source c66_tree) by (apply source_b_ok; vm_compute; reflexivity). split; [exact S|].
  apply (std_packs Debug c66_tree 10 []); [exact S|]. vm_compute. reflexivity.
Qed.
Example c66_example :
  selects_dir c66_tree (text "/s/") [(text "b", FFile []); (text "D", FDir [(text "c", FFile [x78])])]
  /\ cmd_ls 20 c66_img (text "/s/") false = ([text "b"; text "D"], Ok tt)
  /\ cmd_ls 20 c66_img (text "/") true = ([text "a"; text "S"], Ok tt)
  /\ cmd_ls 20 c66_img (text "a") false = ([], Err IsNotDirectory).
Proof.
  split; [|exact (conj ltac:(run 0) (conj ltac:(run 1) ltac:(run 2)))]. right. exists (text "S"), [text "s"]. split.
  - exists 1%nat, [47]. split; [reflexivity|]. split; [|split; [discriminate|split; [discriminate|right; reflexivity]]].
    constructor; [|constructor]. intros [E|[]]. discriminate.
  - eapply nm_last; [right; left; reflexivity|reflexivity].
Qed.

(** C67: tree prints every entry with its path and size, and the totals. *)
Theorem c67_tree :
  forall file t name, is_image file t ->
  exists lines, Permutation lines (map row_line (rows [] t))
    /\ returns (fun fuel => cmd_tree fuel name file)
         (lines ++ [decimal (count_files t) ++ text " files, " ++ decimal (count_bytes t) ++ text " bytes in " ++ name], Ok tt).
Proof. exact c67_lemma. Qed.
Print Assumptions c67_tree.

(** Numbers are shown in decimal. *)
Theorem c67_numbers : forall n, shows_number n (decimal n).
Proof. exact decimal_shows. Qed.
Print Assumptions c67_numbers.
Example c67_number : decimal 7050 = text "7050" /\ decimal 0 = text "0".
Proof. split; reflexivity. Qed.

Example c67_example :
  cmd_tree 20 (text "i") c66_img
  = ([text "/a (2 bytes)"; text "/S/ (0 bytes)"; text "/S/b (0 bytes)"; text "/S/D/ (0 bytes)"; text "/S/D/c (1 bytes)"; text "3 files, 3 bytes in i"], Ok tt).
Proof. run 3. Qed.

(** C68, partial: md5 prints one line per entry: the right checksum for every
    file, and some line for every directory. Missing: there should be no lines
    for directories. *)
Theorem c68_md5_partial :
  forall H m t img, source t -> packs m t img ->
  exists ns lines, enumerates t ns /\ Forall2 (md5_lists H slashed) lines ns
    /\ returns (fun fuel => cmd_md5 H fuel img None) (lines, Ok tt).
Proof. exact c68_root. Qed.
Print Assumptions c68_md5_partial.

(** ... and with a path: a file is printed as the path given; below a directory
    the paths are as [below] says. Missing: [below] should be the path of the
    directory followed by the path inside the directory. *)
Theorem c68_md5_path_partial :
  forall H m t img path n t', source t -> packs m t img -> selects t path n t' ->
  match t' with
  | FFile b => returns (fun fuel => cmd_md5 H fuel img (Some path)) ([md5_line H b path], Ok tt)
  | FDir _ => exists ns lines, enumerates t' ns /\ Forall2 (md5_lists H (below path)) lines ns
                /\ returns (fun fuel => cmd_md5 H fuel img (Some path)) (lines, Ok tt)
  end.
Proof. exact c68_path. Qed.
Print Assumptions c68_md5_path_partial.

(** With the last two bytes as checksum. *)
Example c68_example :
  cmd_md5 c68_hash 20 c66_img (Some (text "a")) = ([text "6968  a"], Ok tt)
  /\ cmd_md5 c68_hash 20 c66_img (Some (text "s/d")) = ([text "78  s/d/c"], Ok tt).
Proof. exact (conj ltac:(run 4) ltac:(run 5)). Qed.

(** Finding: directories are listed as if they were files, with the checksum of
    their directory table. *)
Theorem c68_md5_lists_only_files_refuted :
  exists t img lines, source t /\ packs Debug t img /\ cmd_md5 c68_hash 20 img None = (lines, Ok tt)
    /\ count_files t = 3 /\ len lines = 5 /\ In (text "ffff  /S/D") lines.
Proof.
  exists c66_tree, c66_img. eexists. split; [apply c66_source|]. split; [apply c66_source|]. split; [run 6|]. ssplit; [reflexivity|reflexivity|].
  cbn. tauto.
Qed.
Print Assumptions c68_md5_lists_only_files_refuted.

(** Finding: below a directory given on the command line, paths get a double
    slash and do not lead to the file any more. *)
Theorem c68_md5_prints_paths_refuted :
  exists t img path shown, source t /\ packs Debug t img
    /\ (exists lines, cmd_md5 c68_hash 20 img (Some path) = (lines, Ok tt) /\ In (text "78  " ++ shown) lines)
    /\ (let* v := read_volume (file_dev img) in walk_path 20 (file_dev img) (v_root v) shown) = Err DoesNotExist.
Proof.
  exists c66_tree, c66_img, (text "S"), (text "S//D/c"). split; [apply c66_source|]. split; [apply c66_source|]. split.
  - eexists. split; [run 7|]. cbn. tauto.
  - run 8.
Qed.
Print Assumptions c68_md5_prints_paths_refuted.

(** C58, partial: info prints the entry found, and for a directory all of its
    entries. Missing: tables above 64 KiB. *)
Theorem c58_info_partial :
  forall m file d r t path n t', opens_as file d r t -> tables_below_64k d r -> selects t path n t' ->
  exists e segs, path_of segs path /\ lookup d r segs (Ok e) /\ name_str e = n /\ is_dir e = is_fdir t' /\
    match t' with
    | FFile _ => returns (fun fuel => cmd_info m fuel file (Some path)) (info_lines e, Ok tt)
    | FDir cs => exists es, Permutation (map name_str es) (map fst cs) /\ (forall e', In e' es -> stored_in d (region_of e) e')
                   /\ returns (fun fuel => cmd_info m fuel file (Some path)) (info_lines e ++ [[]] ++ concat (map child_lines es), Ok tt)
    end.
Proof. exact c58_lemma. Qed.
Print Assumptions c58_info_partial.

Example c58_example :
  cmd_info Debug 20 c66_img (Some (text "/A"))
  = ([text "Name:                a"; text "Offset:              67584"; text "Left Child Offset:   None"; text "Right Child Offset:  16 bytes";
      text "Data Location:       Sector 34 (2 bytes)"; text "Attributes:          Archive"], Ok tt).
Proof. run 9. Qed.

(** Finding: a directory of two entries in a table above 64 KiB; "b" is the right
    child of "a" and lies at byte 65536. Both are found; asked for "a", a debug
    build panics and a release build prints an offset of 0 bytes. *)
Definition c58_table : list byte :=
  record 0 16384 34 0 32 [x61] ++ fill (65536 - 16) xff ++ record 0 0 34 0 32 [x62] ++ fill (2048 - 16) xff.
Definition c58_img : list byte :=
  fill 65536 x00 ++ volume_ser (volume_new (mkRegion 33 67584)) ++ c58_table.
Definition c58_walk (path : str) : res rerr (str * N) :=
  let* v := read_volume (file_dev c58_img) in let* e := walk_path 20 (file_dev c58_img) (v_root v) path in Ok (name_str e, d_right (e_node e)).
Example c58_runs :
  (let* v := read_volume (file_dev c58_img) in let* e := walk_path 20 (file_dev c58_img) (v_root v) (text "/a") in Ok (name_str e, d_right (e_node e))) = Ok (text "a", 16384)
  /\ c58_walk (text "/B") = Ok (text "b", 0)
  /\ snd (cmd_info Debug 20 c58_img (Some (text "/a"))) = Panic POverflow
  /\ cmd_info Release 20 c58_img (Some (text "/a"))
     = ([text "Name:                a"; text "Offset:              67584"; text "Left Child Offset:   None"; text "Right Child Offset:  0 bytes";
         text "Data Location:       Sector 34 (0 bytes)"; text "Attributes:          Archive"], Ok tt).
Proof. vm_all. Qed.
Theorem c58_info_refuted :
  exists file path name right, right = 16384
    /\ (let* v := read_volume (file_dev file) in let* e := walk_path 20 (file_dev file) (v_root v) path in Ok (name_str e, d_right (e_node e))) = Ok (name, right)
    /\ snd (cmd_info Debug 20 file (Some path)) = Panic POverflow
    /\ (exists lines, cmd_info Release 20 file (Some path) = (lines, Ok tt) /\ In (text "Right Child Offset:  0 bytes") lines).
Proof.
  exists c58_img, (text "/a"), (text "a"), 16384. split; [reflexivity|]. split; [exact (proj1 c58_runs)|]. split; [exact (proj1 (proj2 (proj2 c58_runs)))|].
  eexists. split; [exact (proj2 (proj2 (proj2 c58_runs)))|]. cbn. tauto.
Qed.
Example c58_other_entry : c58_walk (text "/B") = Ok (text "b", 0).
Proof. exact (proj1 (proj2 c58_runs)). Qed.
Print Assumptions c58_info_refuted.

(** C69: checksum prints one line per image, from its contents only. *)
Theorem c69_checksum :
  forall H images ts, Forall2 (fun x t => is_image (snd x) t /\ plain t) images ts ->
  exists ss, Forall2 fingerprint ts ss
    /\ returns (fun fuel => cmd_checksum H fuel images) (map (fun x => hex_text (H (stream (snd x))) ++ [9] ++ fst (fst x)) (combine images ss), Ok tt).
Proof. exact c70_lemma. Qed.
Print Assumptions c69_checksum.

Example c69_example :
  cmd_checksum (firstn 9) 20 [(text "x", c66_img); (text "y", c66_img)]
  = ([text "2f532f532f442f532f" ++ [9] ++ text "x"; text "2f532f532f442f532f" ++ [9] ++ text "y"], Ok tt).
Proof. run 10. Qed.

(** C102: info without a path prints the fields of the volume descriptor, and fails
    exactly if there is none. *)
Theorem c102_volume :
  forall m fuel file,
  (exists d b r time, open_image file = Ok d /\ d 65536 2048 = Ok b /\ descriptor b r /\ field b 28 8 time
    /\ cmd_info m fuel file None = ([text "Valid:               true"; text "Creation time:       " ++ decimal time;
         text "Root Entry:          Sector " ++ decimal (r_sector r) ++ text " (" ++ decimal (r_size r) ++ text " bytes)"], Ok tt))
  \/ ((forall d, open_image file <> Ok d) /\ cmd_info m fuel file None = ([], Err InvalidVolume)).
Proof. exact c102_lemma. Qed.
Print Assumptions c102_volume.
Example c102_case : cmd_info Debug 0 c66_img None = ([text "Valid:               true"; text "Creation time:       0"; text "Root Entry:          Sector 33 (32 bytes)"], Ok tt).
Proof. run 11. Qed.
