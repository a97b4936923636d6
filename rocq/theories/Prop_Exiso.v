(** Properties C50, C51, C71-C73: the paths used by pack and by the extract-xiso
    commands (cmd_pack.rs, exiso_compat.rs, img.rs). [w_fs w] is the host file
    system; [pk h d] is what packing the source at [d] leaves in the output file and
    how it ends, so it also covers packing that fails or is interrupted. Unless
    [w_left w = None], calls start to fail at some point. *)
From Verif Require Import M_Base M_Util M_Layout M_Read M_Img M_Dev M_Xfs M_Remap M_Cli M_Host M_Unpack M_Exiso.
From Verif Require Import S_Avl S_Codec S_Table S_Read S_Img S_Dev S_Xfs S_Check S_Cli S_Unpack S_Exiso.
From Verif Require Import P_Base P_Witness P_More P_Repack P_Host P_Unpack P_Exiso P_Extra.
From Coq Require Import Init.Byte Strings.String.
From Coq Require Import List.
Local Close Scope string_scope.
Local Open Scope N_scope.

(** A file system with these directories and files. *)
Definition with_files (dirs : list (list str)) (files : list (list str * list byte)) : world :=
  mkWorld (fold_right (fun f h => hset h (fst f) (HFile (snd f))) (w_fs (bare dirs)) files) None.

(** C50, partial: if -c is repeated and only the first one has a FILE, and all
    outputs differ, then success means that every directory was packed to its
    own file. An entry of [es] lists the directory and the FILE as given, and the
    places of the directory and of the image. Missing: other arguments. *)
Theorem c50_create_partial :
  forall cwd pk dir file gs (es : list (str * option str * list str * list str)) w w', Forall unix_name cwd -> Forall (fun g => snd g = None) gs ->
  exiso_create cwd pk dir file (create_line gs) w = (w', Ok tt) ->
  map (fun '(dir, file, d, o) => (dir, file)) es = (dir, file) :: gs ->
  Forall (fun '(dir, file, d, o) => canonicalize (w_fs w) cwd dir = Ok d /\ goes_to cwd d file o) es ->
  NoDup (map (fun '(dir, file, d, o) => o) es) ->
  Forall (fun '(dir, file, d, o) => w_fs w d = Some HDir /\ exists h, (forall z, h z = w_fs w z \/ In z (map (fun '(dir, file, d, o) => o) es))
      /\ snd (pk h d) = Ok tt /\ w_fs w' o = Some (HFile (fst (pk h d)))) es.
Proof. exact c50_lemma. Qed.
Print Assumptions c50_create_partial.

(** Arguments that are accepted are read correctly. *)
Theorem c50_accepted_arguments_partial :
  forall rest tasks, create_args rest = Ok tasks -> rest = create_line tasks /\ Forall (fun g => snd g = None) tasks.
Proof. exact create_args_sound. Qed.
Print Assumptions c50_accepted_arguments_partial.

Example c50_two :
  let r := exiso_create [] (fun _ d => ([x41], Ok tt)) (text "a") (Some (text "x")) [text "-c"; text "b.c"] (with_files [[]; [text "a"]; [text "b.c"]] []) in
  snd r = Ok tt /\ w_fs (fst r) [text "x"] = Some (HFile [x41]) /\ w_fs (fst r) [text "b.iso"] = Some (HFile [x41]).
Proof. vm_compute. auto. Qed.

(** Finding: a FILE after a repeated -c is never accepted, contrary to the usage
    message "-c <DIR> [FILE] [-c <DIR> [FILE]]...". *)
Theorem c50_repeated_file_refuted :
  exists gs, create_args (create_line gs) = Err HRefused /\ create_line gs = [text "-c"; text "b"; text "y"] /\ gs = [(text "b", Some (text "y"))].
Proof. exists [(text "b", Some (text "y"))]. vm_compute. auto. Qed.
Print Assumptions c50_repeated_file_refuted.
(** ... whatever the arguments are. *)
Theorem c50_every_repeated_file_partial :
  forall gs, Forall (fun g => snd g <> Some [45; 99]) gs -> Exists (fun g => snd g <> None) gs -> create_args (create_line gs) = Err HRefused.
Proof. exact create_args_files. Qed.
Print Assumptions c50_every_repeated_file_partial.

(** Finding: the directories game.1 and game.2 are both packed to game.iso, and
    only the second image remains. *)
Theorem c50_own_file_refuted :
  exists cwd dir gs w o, forall out1 out2,
    let pk := fun (_ : host) d => (if hpath_eqb d [text "game.1"] then out1 else out2, Ok tt) in
    let r := exiso_create cwd pk dir None (create_line gs) w in
    dir = text "game.1" /\ gs = [(text "game.2", None)] /\ w_fs w o = None /\ snd r = Ok tt /\ w_fs (fst r) o = Some (HFile out2)
    /\ goes_to cwd [text "game.1"] None o /\ goes_to cwd [text "game.2"] None o.
Proof.
  exists [], (text "game.1"), [(text "game.2", None)], (with_files [[]; [text "game.1"]; [text "game.2"]] []), [text "game.iso"]. intros out1 out2. cbv zeta.
  split; [reflexivity|]. split; [reflexivity|]. split; [vm_compute; reflexivity|]. split; [vm_compute; reflexivity|]. split; [vm_compute; reflexivity|].
  split; [exists [], (text "game.1"), (text "game.iso")|exists [], (text "game.2"), (text "game.iso")]; (ssplit; [reflexivity| |reflexivity]);
    left; exists (text "game"); [exists (text "1")|exists (text "2")]; (ssplit; [reflexivity|discriminate| |reflexivity]); vm_compute; intuition discriminate.
Qed.
Print Assumptions c50_own_file_refuted.

(** C51: while and after one image is rewritten, whatever fails, its original
    bytes are in place or under the new name, unless they were to be deleted and
    packing them had succeeded. *)
Theorem c51_one_image_partial :
  forall cwd pk directory delete x w p q b, Forall unix_name cwd -> canonicalize (w_fs w) cwd x = Ok p -> w_fs w p = Some (HFile b) -> moved_to p q ->
  kept pk delete p q b (w_fs (fst (exiso_repack cwd pk directory delete [x] w))).
Proof. exact c51_one. Qed.
Print Assumptions c51_one_image_partial.

(** C51, several images: if they and their new names are all different. An entry
    of [es] lists the argument, the place of the image, its new name, its bytes.
    Missing: images with the same new name, and -d with several images. *)
Theorem c51_several_images_partial :
  forall cwd pk delete (es : list (str * list str * list str * list byte)), Forall unix_name cwd -> forall w,
  Forall (fun '(x, p, q, b) => canonicalize (w_fs w) cwd x = Ok p /\ w_fs w p = Some (HFile b) /\ moved_to p q) es ->
  NoDup (map (fun '(x, p, q, b) => p) es ++ map (fun '(x, p, q, b) => q) es) ->
  Forall (fun '(x, p, q, b) => kept pk delete p q b (w_fs (fst (exiso_repack cwd pk None delete (map (fun '(x, p, q, b) => x) es) w)))) es
  /\ (forall z, ~ In z (map (fun '(x, p, q, b) => p) es ++ map (fun '(x, p, q, b) => q) es) ->
      w_fs (fst (exiso_repack cwd pk None delete (map (fun '(x, p, q, b) => x) es) w)) z = w_fs w z).
Proof. exact c51_many. Qed.
Print Assumptions c51_several_images_partial.

(** A directory is refused, and nothing changes. *)
Theorem c51_directories :
  forall cwd pk directory delete x xs w p, canonicalize (w_fs w) cwd x = Ok p -> w_fs w p = Some HDir ->
  exiso_repack cwd pk directory delete (x :: xs) w = (w, Err HRefused).
Proof. exact c51_directory. Qed.
Print Assumptions c51_directories.

Example c51_interrupted :
  let w := with_files [[]; [text "d"]] [([text "d"; text "a.iso"], [x31])] in
  let pk := fun (_ : host) (_ : list str) => ([x40], Err HPack) in
  let r := exiso_repack [] pk None true [text "d/a.iso"] w in
  snd r = Err HPack /\ w_fs (fst r) [text "d"; text "a.iso"] = Some (HFile [x40]) /\ w_fs (fst r) [text "d"; text "a.old"] = Some (HFile [x31]).
Proof. vm_compute. auto. Qed.

Example c51_old n : new_ext [111; 108; 100] (text "a." ++ n) (text "a.old") \/ In 46 n.
Proof.
  destruct (in_dec N.eq_dec 46 n) as [H|H]; [right; exact H|left]. left. exists (text "a"), n. ssplit; auto. discriminate.
Qed.
(** Finding: a.iso and a.bin are both renamed to a.old; the first original is
    lost, although everything succeeds and nothing was to be deleted. *)
Theorem c51_same_name_refuted :
  exists cwd xs w p q, forall out, let pk := fun (_ : host) (_ : list str) => (out, Ok tt) in
    let r := exiso_repack cwd pk None false xs w in
    xs = [text "a.iso"; text "a.bin"] /\ canonicalize (w_fs w) cwd (text "a.iso") = Ok p /\ w_fs w p = Some (HFile [x31]) /\ moved_to p q
    /\ snd r = Ok tt /\ w_fs (fst r) p = Some (HFile out) /\ w_fs (fst r) q = Some (HFile [x32]).
Proof.
  exists [], [text "a.iso"; text "a.bin"], (with_files [[]] [([text "a.iso"], [x31]); ([text "a.bin"], [x32])]), [text "a.iso"], [text "a.old"].
  intros out. cbv zeta. ssplit; try (vm_compute; reflexivity). exists [], (text "a.iso"), (text "a.old"). ssplit; try reflexivity.
  destruct (c51_old (text "iso")) as [H|H]; [exact H|vm_compute in H; intuition discriminate].
Qed.
Print Assumptions c51_same_name_refuted.

(** Finding: when a rewrite has failed, repeating the command destroys the
    original: what the first attempt left behind replaces it. *)
Theorem c51_repeated_refuted :
  exists cwd x w p q, forall out, let fails := fun (_ : host) (_ : list str) => (out, Err HPack) in
    let first := exiso_repack cwd fails None false [x] w in
    let second := exiso_repack cwd fails None false [x] (fst first) in
    canonicalize (w_fs w) cwd x = Ok p /\ w_fs w p = Some (HFile [x31]) /\ moved_to p q
    /\ w_fs (fst first) q = Some (HFile [x31])
    /\ w_fs (fst second) p = Some (HFile out) /\ w_fs (fst second) q = Some (HFile out).
Proof.
  exists [], (text "a.iso"), (with_files [[]] [([text "a.iso"], [x31])]), [text "a.iso"], [text "a.old"].
  intros out. cbv zeta. ssplit; try (vm_compute; reflexivity). exists [], (text "a.iso"), (text "a.old"). ssplit; try reflexivity.
  destruct (c51_old (text "iso")) as [H|H]; [exact H|vm_compute in H; intuition discriminate].
Qed.
Print Assumptions c51_repeated_refuted.

(** Finding: with -D the original is deleted although the new image is useless: the
    output device fails while the buffered writer is dropped, and that error is
    ignored. *)
Definition c51_image : list byte := fst (fst (create_xdvdfs_image 10 Debug file_wdev (std_fs (FDir [([97], FFile (fill 61440 x41))])) ([], []))).
Definition c51_packer : packer := buffered_packer (crash_raw (IoOther 28)) 1048576 (fun b => [Through b]) ([], 63488) fst 100 Debug.
Definition c51_run : world * res herr unit := exiso_repack [] c51_packer None true [text "a.iso"] (with_files [[]] [([text "a.iso"], c51_image)]).
Theorem c51_deleted_refuted :
  snd c51_run = Ok tt /\ w_fs (fst c51_run) [text "a.old"] = None
  /\ exists b, w_fs (fst c51_run) [text "a.iso"] = Some (HFile b) /\ read_volume (file_dev b) = Err InvalidVolume.
Proof.
  split; [vm_compute; reflexivity|]. split; [vm_compute; reflexivity|].
  assert (H : match w_fs (fst c51_run) [text "a.iso"] with Some (HFile b) => Some (read_volume (file_dev b)) | _ => None end = Some (Err InvalidVolume)) by (vm_compute; reflexivity).
  revert H. generalize (w_fs (fst c51_run) [text "a.iso"]). intros [[|b]|] H; try discriminate. exists b. split; [reflexivity|]. injection H as H. exact H.
Qed.
Print Assumptions c51_deleted_refuted.

(** C71, finding: "-d: In rewrite mode, output xiso in directory". With -d /out/dir
    the image is written to /out, beside the directory. *)
Theorem c71_output_directory_refuted :
  exists cwd x d w, forall out, let pk := fun (_ : host) (_ : list str) => (out, Ok tt) in
    let r := exiso_repack cwd pk (Some d) false [x] w in
    canonicalize (w_fs w) cwd d = Ok [text "out"; text "dir"] /\ w_fs w [text "out"; text "dir"] = Some HDir /\ x = text "a.iso"
    /\ snd r = Ok tt /\ w_fs (fst r) [text "out"; text "dir"; text "a.iso"] = None /\ w_fs (fst r) [text "out"; text "a.iso"] = Some (HFile out).
Proof.
  exists [], (text "a.iso"), (text "/out/dir"), (with_files [[]; [text "out"]; [text "out"; text "dir"]] [([text "a.iso"], [x31])]).
  intros out. cbv zeta. ssplit; vm_compute; reflexivity.
Qed.
Print Assumptions c71_output_directory_refuted.
(** C71, partial: where the new image always goes. With -d DIR, for any existing
    directory DIR, a successful rewrite leaves what was packed from the moved image in
    the directory that contains DIR, under the image's own name (in "/" if DIR is
    "/"), and changes nothing else but the image and its .old name. Missing: the image
    in DIR itself, which the finding above refutes unless DIR is "/". *)
Theorem c71_beside_partial :
  forall cwd pk d delete x w w' p q b dd i n, Forall unix_name cwd -> canonicalize (w_fs w) cwd x = Ok p -> w_fs w p = Some (HFile b) ->
  p = i ++ [n] -> moved_to p q -> canonicalize (w_fs w) cwd d = Ok dd -> w_fs w dd = Some HDir ->
  exiso_repack cwd pk (Some d) delete [x] w = (w', Ok tt) ->
  let o := removelast dd ++ [n] in
  (exists h out, h q = Some (HFile b) /\ pk h q = (out, Ok tt) /\ w_fs w' o = Some (HFile out))
  /\ forall z, z <> o -> z <> p -> z <> q -> w_fs w' z = w_fs w z.
Proof. exact c71_lemma. Qed.
Print Assumptions c71_beside_partial.
Example c71_root :
  let w := with_files [[]; [text "in"]] [([text "in"; text "a.iso"], [x31])] in
  let r := exiso_repack [] (fun _ _ => ([x32], Ok tt)) (Some (text "/")) true [text "in/a.iso"] w in
  canonicalize (w_fs w) [] (text "/") = Ok [] /\ snd r = Ok tt /\ w_fs (fst r) [text "a.iso"] = Some (HFile [x32]) /\ w_fs (fst r) [text "in"; text "a.old"] = None.
Proof. cbv zeta. ssplit; vm_compute; reflexivity. Qed.

(** C72: pack never changes a file that it packs from, and it changes at most one
    file. *)
Theorem c72_source_image :
  forall cwd pk source image w p b, canonicalize (w_fs w) cwd source = Ok p -> w_fs w p = Some (HFile b) ->
  w_fs (fst (cmd_pack cwd pk source image w)) p = Some (HFile b).
Proof. exact c72_file. Qed.
Print Assumptions c72_source_image.
Theorem c72_one_file :
  forall cwd pk source image w w' r, cmd_pack cwd pk source image w = (w', r) -> exists o, changes_only o (w_fs w) (w_fs w').
Proof. exact pack_one_file. Qed.
Print Assumptions c72_one_file.
(** C72, partial: nor anything in a directory that it packs. Missing: output paths
    that contain "..". *)
Theorem c72_source_directory_partial :
  forall cwd pk source image w p, Forall (fun c => ~ In 47 c) cwd -> match image with Some i => no_dotdot i | None => True end ->
  canonicalize (w_fs w) cwd source = Ok p -> untouched p (w_fs w) (w_fs (fst (cmd_pack cwd pk source image w))).
Proof. exact c72_dir. Qed.
Print Assumptions c72_source_directory_partial.

(** The same image under another name, and the default output beside the source. *)
Example c72_same : snd (cmd_pack [text "t"] (fun _ _ => ([x50], Ok tt)) (text "../a.iso") (Some (text "./../t/../a.iso"))
    (with_files [[]; [text "t"]] [([text "a.iso"], [x31])])) = Err HRefused.
Proof. vm_compute. reflexivity. Qed.
Example c72_default :
  let r := cmd_pack [] (fun _ _ => ([x50], Ok tt)) (text "a.iso") None (with_files [[]] [([text "a.iso"], [x31])]) in
  snd r = Ok tt /\ w_fs (fst r) [text "a.xiso.iso"] = Some (HFile [x50]) /\ w_fs (fst r) [text "a.iso"] = Some (HFile [x31]).
Proof. vm_compute. auto. Qed.

(** Finding: in a directory beside the source, ../s/o is accepted as the output for
    ../s, and the image is created in the directory that is being packed. The same
    path is refused if the file exists. *)
Theorem c72_source_directory_refuted :
  exists cwd source image w, forall out, let pk := fun (_ : host) (_ : list str) => (out, Ok tt) in
    let r := cmd_pack cwd pk source (Some image) w in
    canonicalize (w_fs w) cwd source = Ok [text "s"] /\ w_fs w [text "s"; text "o"] = None
    /\ snd r = Ok tt /\ w_fs (fst r) [text "s"; text "o"] = Some (HFile out)
    /\ snd (cmd_pack cwd pk source (Some image) (fst r)) = Err HRefused.
Proof.
  exists [text "t"], (text "../s"), (text "../s/o"), (with_files [[]; [text "s"]; [text "t"]] []). intros out. cbv zeta. ssplit; vm_compute; reflexivity.
Qed.
Print Assumptions c72_source_directory_refuted.

(** C73: rewriting an image that was packed from [t]: the original bytes are then
    under the new name, and in their place is an image of the same tree, unless a
    directory table, built in another order, becomes too large. *)
Theorem c73_rewriting_preserves_contents :
  forall m m' cwd x w p q t img, Forall unix_name cwd -> w_left w = None -> rooted (w_fs w) -> canonicalize (w_fs w) cwd x = Ok p -> w_fs w p = Some (HFile img) ->
  moved_to p q -> p <> q -> w_fs w q <> Some HDir -> source t -> latin_tree t -> packs m t img ->
  exists t' img' o w', same_tree t t'
   /\ returns (fun fuel => exiso_repack cwd (image_packer fuel m') None false [x] w) (w', o)
   /\ w_fs w' q = Some (HFile img) /\ w_fs w' p = Some (HFile img') /\ (forall z, z <> p -> z <> q -> w_fs w' z = w_fs w z)
   /\ (o = Ok tt /\ packs m' t' img' /\ readable (file_dev img') t
       \/ o = Err HPack /\ exists p cs s, at_path t' p (FDir cs) /\ table_size m' cs s /\ 262144 < s).
Proof. exact c73_lemma. Qed.
Print Assumptions c73_rewriting_preserves_contents.
Definition c73_image : list byte := fst (fst (create_xdvdfs_image 10 Debug file_wdev (std_fs (FDir [([98], FFile [x41; x42])])) ([], []))).
Definition c73_run : world * res herr unit := exiso_repack [] (image_packer 100 Debug) None false [text "a.iso"] (with_files [[]] [([text "a.iso"], c73_image)]).
Example c73_rewritten : snd c73_run = Ok tt /\ match w_fs (fst c73_run) [text "a.iso"] with Some (HFile b) => len b | _ => 0 end = 131072
  /\ match w_fs (fst c73_run) [text "a.old"] with Some (HFile b) => len b | _ => 0 end = 131072.
Proof. ssplit; vm_compute; reflexivity. Qed.
(** ... and rewriting any image, at whatever place in the file, whose sector scans
    show a tree. *)
Theorem c73_rewriting_any_image :
  forall m cwd x w p q file d v t, Forall unix_name cwd -> w_left w = None -> rooted (w_fs w) -> canonicalize (w_fs w) cwd x = Ok p -> w_fs w p = Some (HFile file) ->
  moved_to p q -> p <> q -> w_fs w q <> Some HDir ->
  open_image file = Ok d -> read_volume d = Ok v -> scans d t (v_root v) -> source t -> latin_tree t ->
  exists img o w', returns (fun fuel => exiso_repack cwd (image_packer fuel m) None false [x] w) (w', o)
   /\ w_fs w' q = Some (HFile file) /\ w_fs w' p = Some (HFile img) /\ (forall z, z <> p -> z <> q -> w_fs w' z = w_fs w z)
   /\ (representable m t /\ o = Ok tt /\ packs m t img \/ ~ representable m t /\ o = Err HPack).
Proof. exact c73_any. Qed.
Print Assumptions c73_rewriting_any_image.
