(** Properties C103-C105: unpacking an image that is a file of the host, and the
    modes -x and -l of extract-xiso. *)
From Verif Require Import M_Base M_Util M_Layout M_Read M_Img M_Remap M_Cli M_Unpack M_Exiso M_Host M_Extract.
From Verif Require Import S_Avl S_Codec S_Read S_Img S_Check S_Cli S_Unpack S_Exiso S_Fault S_Extract.
From Verif Require Import P_Vm.
From Verif Require Import P_Base P_Witness P_More P_Src P_Cli P_Host P_Unpack P_Exiso P_Extract.
From Coq Require Import Init.Byte Strings.String Permutation.
From Coq Require Import List.
Local Close Scope string_scope.
Local Open Scope N_scope.

(** C103: unpacking into a free place restores the tree and leaves the image as it is. *)
Theorem c103_restores_and_keeps :
  forall cwd s dest w ip file t, canonicalize (w_fs w) cwd s = Ok ip -> w_fs w ip = Some (HFile file) -> is_image file t -> unix_tree t -> ready_for cwd dest t w ->
  exists w', returns (fun fuel => unpack_at fuel cwd s (Some dest) w) (w', Ok tt) /\ restored (place cwd dest) t (w_fs w) (w_fs w') /\ w_fs w' ip = Some (HFile file).
Proof. exact c103_restores. Qed.
Print Assumptions c103_restores_and_keeps.
(** C103, partial: in every case, whatever fails, and for untrusted images, an image
    that is not inside the destination is left alone, and all data is what the image
    held at the start. Missing: images inside the destination; destinations and names
    that contain "..". *)
Theorem c103_image_kept_partial :
  forall fuel cwd s dest w ip file, no_dotdot dest -> lists_harmless fuel file -> canonicalize (w_fs w) cwd s = Ok ip -> w_fs w ip = Some (HFile file) ->
  ~ strictly_below (place cwd dest) ip ->
  let r := unpack_at fuel cwd s (Some dest) w in r = cmd_unpack fuel cwd s file (Some dest) w /\ w_fs (fst r) ip = Some (HFile file).
Proof. exact c103_lemma. Qed.
Print Assumptions c103_image_kept_partial.

(** A host with these directories and files. *)
Definition c103_host (dirs : list (list str)) (files : list (list str * list byte)) : world :=
  mkWorld (fold_right (fun f h => hset h (fst f) (HFile (snd f))) (w_fs (bare dirs)) files) None.
(** An image with the files "i" ("hi") and "z" ("yo"). *)
Definition c103_img : list byte :=
  image_of (record 0 4 34 2 32 [x69] ++ record 0 0 35 2 32 [x7a]) ([x68; x69] ++ fill 2046 x00 ++ [x79; x6f]).
Definition c103_world : world := c103_host [[]] [([text "i"], c103_img)].
(** Finding: an image called "i" that contains a file "i" is destroyed when it is
    unpacked into its own directory. All files come out empty, and unpack reports
    success. *)
Theorem c103_image_kept_refuted :
  exists fuel cwd s dest w, w_fs w [text "i"] = Some (HFile c103_img)
    /\ (let r := unpack_at fuel cwd s (Some (text "out")) w in snd r = Ok tt /\ w_fs (fst r) [text "out"; text "i"] = Some (HFile [x68; x69]) /\ w_fs (fst r) [text "out"; text "z"] = Some (HFile [x79; x6f]))
    /\ (let r := unpack_at fuel cwd s (Some dest) w in snd r = Ok tt /\ w_fs (fst r) [text "i"] = Some (HFile []) /\ w_fs (fst r) [text "z"] = Some (HFile [])).
Proof.
  exists 20%nat, [], (text "i"), (text "."), c103_world. cbv zeta. split; [reflexivity|]. ssplit; vm_compute; reflexivity.
Qed.
Print Assumptions c103_image_kept_refuted.

(** A source that is no image is refused, and nothing is written. *)
Theorem c103_no_image_no_change :
  forall fuel cwd s dest w, (forall ip file d v, canonicalize (w_fs w) cwd s = Ok ip -> w_fs w ip = Some (HFile file) -> open_image file = Ok d -> read_volume d <> Ok v) ->
  fst (unpack_at fuel cwd s (Some dest) w) = w /\ snd (unpack_at fuel cwd s (Some dest) w) <> Ok tt.
Proof. exact c103_no_image. Qed.
Print Assumptions c103_no_image_no_change.
Example c103_no_image_case :
  unpack_at 5 [] (text ".") (Some (text "d")) c103_world = (c103_world, Err (UHost HIsADirectory)).
Proof. reflexivity. Qed.

(** C104: -x with several images extracts each of them completely into the directory
    named after it, and changes nothing else; in particular no image. *)
Theorem c104_extract_all :
  forall cwd js w, w_left w = None -> rooted (w_fs w) -> w_fs w cwd = Some HDir -> Forall (extractable cwd (w_fs w)) js -> NoDup (map j_stem js) ->
  exists w', returns (fun fuel => exiso_extract fuel cwd None (map j_path js) w) (w', Ok tt)
    /\ (forall j, In j js -> tree_at (w_fs w') (cwd ++ [j_stem j]) (j_tree j))
    /\ forall q, (forall j, In j js -> ~ leads_to (cwd ++ [j_stem j]) q) -> w_fs w' q = w_fs w q.
Proof. exact c104_lemma. Qed.
Print Assumptions c104_extract_all.

(** An image with the file "x". *)
Definition c104_img (b : byte) : list byte :=
  image_of (record 0 0 34 1 32 [x78]) [b].
Definition c104_world : world := c103_host [[]; [text "d"]] [([text "a.iso"], c104_img x31); ([text "d"; text "a.iso"], c104_img x32); ([text "d"; text "b.1.iso"], c104_img x33)].
Example c104_example :
  let r := exiso_extract 20 [] None [text "a.iso"; text "d/b.1.iso"] c104_world in
  snd r = Ok tt /\ map (w_fs (fst r)) [[text "a"; text "x"]; [text "b.1"; text "x"]; [text "d"; text "b.1"]] = [Some (HFile [x31]); Some (HFile [x33]); None].
Proof. cbv zeta. vm_all. Qed.
(** The premises hold for packed images. *)
Definition c104_tree : ftree := FDir [(text "x", FFile [x31])].
Definition c104_packed : list byte := fst (fst (create_xdvdfs_image 10 Debug file_wdev (std_fs c104_tree) ([], []))).
Example c104_premises :
  extractable [] (w_fs (c103_host [[]; [text "d"]] [([text "d"; text "b.1.iso"], c104_packed)])) (mkJob (text "d/b.1.iso") c104_packed c104_tree (text "b.1")).
Proof.
  assert (S : source c104_tree) by (apply source_b_ok; vm_compute; reflexivity). unfold extractable. cbn [j_path j_file j_tree j_stem]. ssplit.
  - vm_compute. intros [H|[H|[]]]; discriminate.
  - exists [text "d"], (text "b.1.iso"). split; [vm_compute; reflexivity|]. split; [reflexivity|]. left. exists (text "iso"). split; [reflexivity|]. split; [discriminate|vm_compute; intuition discriminate].
  - apply (packed_is_image Debug); [exact S|]. apply (std_packs Debug c104_tree 10 []); [exact S|vm_compute; reflexivity].
  - apply unix_tree_ok. vm_compute. reflexivity.
  - discriminate.
  - apply unix_name_b_ok. reflexivity.
  - reflexivity.
Qed.
(** Finding: images of the same name are extracted into one directory; the second
    replaces files of the first, and success is reported. The same happens to all
    images if a directory is given with -d. *)
Theorem c104_same_name_refuted :
  exists fuel w, let r := exiso_extract fuel [] None [text "a.iso"; text "d/a.iso"] w in
    snd r = Ok tt /\ (exists k, w_fs (fst (exiso_extract k [] None [text "a.iso"] w)) [text "a"; text "x"] = Some (HFile [x31]))
    /\ w_fs (fst r) [text "a"; text "x"] = Some (HFile [x32]).
Proof.
  exists 20%nat, c104_world. cbv zeta. split; [vm_compute; reflexivity|]. split; [exists 20%nat; vm_compute; reflexivity|vm_compute; reflexivity].
Qed.
Print Assumptions c104_same_name_refuted.
Theorem c104_directory_refuted :
  exists fuel w, let r := exiso_extract fuel [] (Some (text "o")) [text "a.iso"; text "d/b.1.iso"] w in
    snd r = Ok tt /\ w_fs (fst r) [text "o"; text "x"] = Some (HFile [x33]).
Proof. exists 20%nat, c104_world. cbv zeta. vm_all. Qed.
Print Assumptions c104_directory_refuted.

(** C105: -l prints the listing of every image (C67), in the order given. *)
Theorem c105_list :
  forall js : list (str * list byte * ftree), Forall (fun j => is_image (snd (fst j)) (snd j)) js ->
  exists outs, Forall2 (fun (j : str * list byte * ftree) lines => exists body, Permutation body (map row_line (rows [] (snd j)))
      /\ lines = body ++ [decimal (count_files (snd j)) ++ text " files, " ++ decimal (count_bytes (snd j)) ++ text " bytes in " ++ fst (fst j)]) js outs
    /\ returns (fun fuel => exiso_list fuel (map fst js)) (concat outs, Ok tt).
Proof. exact c105_lemma. Qed.
Print Assumptions c105_list.
Example c105_example :
  exiso_list 20 [(text "a", c104_img x31); (text "b", c103_img); (text "c", []); (text "a", c104_img x31)]
  = ([text "/x (1 bytes)"; text "1 files, 1 bytes in a"; text "/i (2 bytes)"; text "/z (2 bytes)"; text "2 files, 4 bytes in b"], snd (cmd_tree 20 (text "c") [])).
Proof. vm_compute. reflexivity. Qed.

(** C99 for these commands: a success means that no call has failed. *)
Theorem c99_unpack_in_place : forall fuel cwd s target, honest (unpack_at fuel cwd s target).
Proof. exact honest_unpack_at. Qed.
Print Assumptions c99_unpack_in_place.
Theorem c99_exiso_extract : forall fuel cwd directory xs, honest (exiso_extract fuel cwd directory xs).
Proof. exact honest_extract. Qed.
Print Assumptions c99_exiso_extract.
