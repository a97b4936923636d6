(** Properties C47-C49, C70: unpack and copy-out (cmd_unpack.rs). [w_fs w] is the
    host file system: what is found at every absolute path, given as a list of
    names. Unless [w_left w = None], calls start to fail at some point. *)
From Verif Require Import M_Base M_Util M_Layout M_Read M_Img M_Cli M_Host M_Unpack.
From Verif Require Import S_Avl S_Codec S_Read S_Img S_Check S_Cli S_Unpack S_Dotdot.
From Verif Require Import P_Vm.
From Verif Require Import P_Base P_Witness P_More P_Src P_Host P_Unpack P_Dotdot.
From Coq Require Import Init.Byte Strings.String.
From Coq Require Import List.
Local Close Scope string_scope.
Local Open Scope N_scope.

(** C47, partial: whatever happens, unpacking changes nothing outside the
    destination, except that missing directories on the way to it are created.
    Missing: images with names that begin with a slash, or that have ".." beside a
    slash, and destinations that contain "..". *)
Theorem c47_unpack_partial :
  forall fuel cwd image_path file dest w, no_dotdot dest -> lists_names contained fuel file ->
  stays_below (place cwd dest) (w_fs w) (w_fs (fst (cmd_unpack fuel cwd image_path file (Some dest) w))).
Proof. exact c47_contained. Qed.
Print Assumptions c47_unpack_partial.

(** ... in particular for images of trees whose names have no slashes; they may have
    the name "..", which makes unpacking fail. *)
Theorem c47_slashless_images_partial :
  forall fuel cwd image_path file dest t w, no_dotdot dest -> is_image file t ->
  every_dir (fun cs => forall n, In n (map fst cs) -> ~ In 47 n) t ->
  stays_below (place cwd dest) (w_fs w) (w_fs (fst (cmd_unpack fuel cwd image_path file (Some dest) w))).
Proof. exact c47_slashless. Qed.
Print Assumptions c47_slashless_images_partial.

(** An image with one file, containing "hi". *)
Definition c47_img (name : list byte) : list byte :=
  let r := record 0 0 34 2 32 name in
  fill 65536 x00 ++ volume_ser (volume_new (mkRegion 33 2048)) ++ r ++ fill (2048 - len r) xff ++ [x68; x69].
Definition c47_run (name : list byte) : world * res uerr unit :=
  cmd_unpack 20 [] (text "i") (c47_img name) (Some (text "out")) (bare [[]]).

Example c47_example :
  contained [46; 46] /\ contained (text "a/b") /\ ~ contained (text "../x")
  /\ c47_run [x2e; x2e] = (fst (c47_run [x2e; x2e]), Err (UHost HIsADirectory))
  /\ w_fs (fst (c47_run [x2e; x2e])) [text "out"] = Some HDir.
Proof.
  split; [right; reflexivity|]. split; [left; split; [discriminate|vm_compute; intuition discriminate]|].
  split; [intros [(_ & H)|H]; [apply H; vm_compute; left; reflexivity|discriminate]|]. split; [|vm_compute; reflexivity].
  assert (H : snd (c47_run [x2e; x2e]) = Err (UHost HIsADirectory)) by (vm_compute; reflexivity). rewrite <- H. apply surjective_pairing.
Qed.

(** Finding: a file called "../x" ends up beside the destination. *)
Theorem c47_unpack_refuted :
  exists fuel cwd image_path file dest w, no_dotdot dest
    /\ snd (cmd_unpack fuel cwd image_path file (Some dest) w) = Ok tt
    /\ ~ stays_below (place cwd dest) (w_fs w) (w_fs (fst (cmd_unpack fuel cwd image_path file (Some dest) w))).
Proof.
  exists 20%nat, [], (text "i"), (c47_img [x2e; x2e; x2f; x78]), (text "out"), (bare [[]]).
  assert (E : w_fs (fst (c47_run [x2e; x2e; x2f; x78])) [text "x"] = Some (HFile [x68; x69])) by (vm_compute; reflexivity).
  split; [vm_compute; intros [H|[]]; discriminate|]. split; [vm_compute; reflexivity|].
  intros (H & _). destruct (H [text "x"]) as [F|[(n & p & F)|(F1 & F2 & F3)]].
  - assert (F' : w_fs (fst (c47_run [x2e; x2e; x2f; x78])) [text "x"] = w_fs (bare [[]]) [text "x"]) by exact F. rewrite E in F'. discriminate.
  - vm_compute in F. discriminate.
  - assert (F' : w_fs (fst (c47_run [x2e; x2e; x2f; x78])) [text "x"] = Some HDir) by exact F3. rewrite E in F'. discriminate.
Qed.
Print Assumptions c47_unpack_refuted.

(** Finding: a file called "/x" ends up at that place. *)
Theorem c47_absolute_refuted :
  exists fuel cwd image_path file dest w, no_dotdot dest
    /\ snd (cmd_unpack fuel cwd image_path file (Some dest) w) = Ok tt
    /\ w_fs w [text "x"] = None
    /\ w_fs (fst (cmd_unpack fuel cwd image_path file (Some dest) w)) [text "x"] = Some (HFile [x68; x69])
    /\ place cwd dest = [text "h"; text "out"].
Proof.
  exists 20%nat, [text "h"], (text "i"), (c47_img [x2f; x78]), (text "out"), (bare [[]; [text "h"]]).
  split; [vm_compute; intros [H|[]]; discriminate|]. split; [vm_compute; reflexivity|]. split; [reflexivity|]. split; [vm_compute; reflexivity|reflexivity].
Qed.
Print Assumptions c47_absolute_refuted.

(** Finding: without a destination, an image called "...iso" is unpacked into the
    parent of the working directory. *)
Theorem c47_default_destination_refuted :
  exists fuel cwd image_path file w, file_name image_path = Some image_path
    /\ snd (cmd_unpack fuel cwd image_path file None w) = Ok tt
    /\ cwd = [text "h"] /\ w_fs w [text "x"] = None
    /\ w_fs (fst (cmd_unpack fuel cwd image_path file None w)) [text "x"] = Some (HFile [x68; x69]).
Proof.
  exists 20%nat, [text "h"], (text "...iso"), (c47_img [x78]), (bare [[]; [text "h"]]).
  split; [vm_compute; reflexivity|]. split; [vm_compute; reflexivity|]. split; [reflexivity|]. split; [reflexivity|vm_compute; reflexivity].
Qed.
Print Assumptions c47_default_destination_refuted.

(** C48: unpacking an image into a free place restores the tree, exactly. *)
Theorem c48_unpack :
  forall cwd image_path file dest t w, is_image file t -> unix_tree t -> ready_for cwd dest t w ->
  exists w', returns (fun fuel => cmd_unpack fuel cwd image_path file (Some dest) w) (w', Ok tt)
    /\ restored (place cwd dest) t (w_fs w) (w_fs w').
Proof. exact c48_lemma. Qed.
Print Assumptions c48_unpack.

(** a ("hi"), S/D/c ("x"), S/E (empty directory). *)
Definition c48_tree : ftree :=
  FDir [(text "a", FFile [x68; x69]); (text "S", FDir [(text "D", FDir [(text "c", FFile [x78])]); (text "E", FDir [])])].
Definition c48_pack := create_xdvdfs_image 10 Debug file_wdev (std_fs c48_tree) ([], []).
Definition c48_img : list byte := fst (fst c48_pack).
Definition c48_run : world * res uerr unit := cmd_unpack 20 [] (text "i") c48_img (Some (text "out")) (bare [[]]).
Example c48_example :
  source c48_tree /\ packs Debug c48_tree c48_img /\ unix_tree c48_tree /\ ready_for [] (text "out") c48_tree (bare [[]])
  /\ snd c48_run = Ok tt
  /\ map (w_fs (fst c48_run)) [[text "out"]; [text "out"; text "a"]; [text "out"; text "S"; text "D"; text "c"]; [text "out"; text "S"; text "E"]; [text "a"]]
     = [Some HDir; Some (HFile [x68; x69]); Some (HFile [x78]); Some HDir; None].
Proof.
  assert (S : source c48_tree) by (apply source_b_ok; vm_compute; reflexivity). split; [exact S|].
  split; [apply (std_packs Debug c48_tree 10 []); [exact S|vm_compute; reflexivity]|].
  split; [apply unix_tree_ok; vm_compute; reflexivity|]. split; [apply bare_ready; [apply unix_name_b_ok; reflexivity|discriminate]|].
  vm_all.
Qed.

(** C49, partial: unpacking a truncated image, if it succeeds, gives the right
    tree with data missing at the ends of files. Missing: then it should fail. *)
Theorem c49_unpack_truncated_partial :
  forall m t img k fuel cwd image_path dest w w', source t -> packs m t img -> unix_tree t -> ready_for cwd dest t w ->
  cmd_unpack fuel cwd image_path (firstn k img) (Some dest) w = (w', Ok tt) ->
  restored_in_part (place cwd dest) t (w_fs w) (w_fs w').
Proof. exact c49_lemma. Qed.
Print Assumptions c49_unpack_truncated_partial.

(** Finding: file data that is missing from the image is not noticed. *)
Definition c49_tree : ftree := FDir [(text "a", FFile [x68; x69])].
Definition c49_pack := create_xdvdfs_image 10 Debug file_wdev (std_fs c49_tree) ([], []).
Definition c49_img : list byte := fst (fst c49_pack).
Theorem c49_unpack_truncated_refuted :
  exists t img k fuel cwd image_path dest w, source t /\ packs Debug t img /\ unix_tree t /\ ready_for cwd dest t w
    /\ at_path t [text "a"] (FFile [x68; x69])
    /\ snd (cmd_unpack fuel cwd image_path (firstn k img) (Some dest) w) = Ok tt
    /\ w_fs (fst (cmd_unpack fuel cwd image_path (firstn k img) (Some dest) w)) (place cwd dest ++ [text "a"]) = Some (HFile [x68]).
Proof.
  exists c49_tree, c49_img, (N.to_nat 69633), 20%nat, [], (text "i"), (text "out"), (bare [[]]).
  assert (S : source c49_tree) by (apply source_b_ok; vm_compute; reflexivity). split; [exact S|].
  split; [apply (std_packs Debug c49_tree 10 []); [exact S|vm_compute; reflexivity]|].
  split; [apply unix_tree_ok; vm_compute; reflexivity|]. split; [apply bare_ready; [apply unix_name_b_ok; reflexivity|discriminate]|].
  split; [eapply at_child; [left; reflexivity|apply at_here]|]. vm_with (cmd_unpack 20 [] (text "i") (firstn (N.to_nat 69633) c49_img) (Some (text "out")) (bare [[]])).
Qed.
Print Assumptions c49_unpack_truncated_refuted.

(** C70: copy-out restores the selected directory, and writes exactly the
    selected file. *)
Theorem c70_copyout_directory :
  forall cwd file src dest t cs w, is_image file t -> unix_tree t -> selects_dir t src cs -> ready_for cwd dest (FDir cs) w ->
  exists w', returns (fun fuel => cmd_copyout fuel cwd file src dest w) (w', Ok tt)
    /\ restored (place cwd dest) (FDir cs) (w_fs w) (w_fs w').
Proof. exact c70_dir. Qed.
Print Assumptions c70_copyout_directory.

Theorem c70_copyout_file :
  forall cwd file src dest t n b w, is_image file t -> selects t src n (FFile b) -> ready_for_file cwd dest w ->
  exists w', returns (fun fuel => cmd_copyout fuel cwd file src dest w) (w', Ok tt)
    /\ forall q, w_fs w' q = if hpath_eqb q (place cwd dest) then Some (HFile b) else w_fs w q.
Proof. exact c70_file. Qed.
Print Assumptions c70_copyout_file.

Definition c70_dir_run := cmd_copyout 20 [] c48_img (text "/s/d") (text "out") (bare [[]]).
Definition c70_file_run := cmd_copyout 20 [] c48_img (text "s/D/C") (text "/out") (bare [[]]).
Example c70_example :
  snd c70_dir_run = Ok tt /\ map (w_fs (fst c70_dir_run)) [[text "out"]; [text "out"; text "c"]; [text "out"; text "D"]] = [Some HDir; Some (HFile [x78]); None]
  /\ snd c70_file_run = Ok tt /\ w_fs (fst c70_file_run) [text "out"] = Some (HFile [x78]).
Proof. vm_all. Qed.
