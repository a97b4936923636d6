(** Properties C93-C98: the browser back end of xdvdfs-web. *)
From Verif Require Import M_Base M_Util M_Layout M_Read M_Img M_Dev M_Xfs M_Lin M_Cli M_Unpack M_Host M_Web.
From Verif Require Import S_Avl S_Codec S_Table S_Read S_Img S_Dev S_Xfs S_Lin S_Check S_Cli S_Unpack S_Web.
From Verif Require Import P_Vm.
From Verif Require Import P_Base P_Witness P_More P_Src P_Cli P_Host P_Unpack P_Web P_WebUnpack.
From Coq Require Import Init.Byte Strings.String.
From Coq Require Import List Permutation.
Local Close Scope string_scope.
Local Open Scope N_scope.

(** C93: packing in the browser gives the image that the command line tool gives
    for the same entries in the order of their names, with zeros appended; when it
    fails, the output file keeps its bytes. *)
Theorem c93_pack :
  forall m q t old, source t ->
  exists t', same_tree t t' /\ name_sorted t' /\ exists x, returns (fun fuel => web_pack fuel m q t old) x /\ web_outcome m q t' old x.
Proof. exact c93_lemma. Qed.
Print Assumptions c93_pack.
Theorem c93_repack :
  forall m q file d v t old, open_image file = Ok d -> read_volume d = Ok v -> scans d t (v_root v) -> source t -> latin_tree t ->
  settles (fun fuel => web_repack fuel m q file old) (web_outcome m q t old).
Proof. exact c93_repack_lemma. Qed.
Print Assumptions c93_repack.

(** z ("hi"), S/c (empty), A. *)
Definition c93_tree : ftree := FDir [(text "z", FFile [x68; x69]); (text "S", FDir [(text "c", FFile [])]); (text "A", FFile [x78])].
Definition c93_run := web_pack 10 Debug None c93_tree [x6f].
Definition c93_full := web_pack 10 Debug (Some 70000) c93_tree [x6f].
Definition c93_cli (t : ftree) := create_xdvdfs_image 10 Debug file_wdev (std_fs t) ([], []).
Example c93_case :
  source c93_tree /\ snd c93_run = Ok tt /\ len (fst (fst c93_run)) = 131072
  /\ bytes_eqb (fst (fst c93_run)) (fst (fst (c93_cli (FDir [(text "A", FFile [x78]); (text "S", FDir [(text "c", FFile [])]); (text "z", FFile [x68; x69])])))) = true
  /\ fst (fst c93_full) = [x6f] /\ match snd c93_full with Ok _ => false | _ => true end = true.
Proof. split; [apply source_b_ok; vm_compute; reflexivity|]. vm_all. Qed.

(** C94: the order in which the browser lists directories does not matter. *)
Theorem c94_order :
  forall fuel m q t1 t2 old, proper t1 -> proper t2 -> same_tree t1 t2 -> web_pack fuel m q t1 old = web_pack fuel m q t2 old.
Proof. exact c94_lemma. Qed.
Print Assumptions c94_order.
(** (For the command line tool it does.) *)
Example c94_case :
  let t1 := FDir [(text "b", FFile [x68]); (text "a", FFile [x69])] in let t2 := FDir [(text "a", FFile [x69]); (text "b", FFile [x68])] in
  same_tree t1 t2 /\ bytes_eqb (fst (fst (web_pack 10 Debug None t1 []))) (fst (fst (web_pack 10 Debug None t2 []))) = true
  /\ bytes_eqb (fst (fst (c93_cli t1))) (fst (fst (c93_cli t2))) = false.
Proof.
  cbv zeta. split; [|vm_all].
  apply (same_dir _ _ [(text "b", FFile [x68]); (text "a", FFile [x69])]); [apply perm_swap|]. repeat constructor.
Qed.

(** C95: compressing in the browser reads, sector by sector, the image that packing
    the same entries in the order of their names gives. *)
Theorem c95_sectors :
  forall m t, source t -> exists t', same_tree t t' /\ name_sorted t' /\ forall img evs, packs m t' img ->
  exists s evs', returns (fun fuel => compress_layout fuel m (web_slice_fs t) ([], evs)) ((s, evs'), Ok tt)
    /\ lin_len s = len img /\ forall k, exists b, read_sector (web_slice_fs t) s k = Ok b /\ is_sector img k b.
Proof. exact c95_lemma. Qed.
Print Assumptions c95_sectors.
Definition c95_lin : lin := fst (fst (compress_layout 10 Debug (web_slice_fs c93_tree) ([], []))).
Example c95_case :
  lin_len c95_lin = 131072
  /\ match read_sector (web_slice_fs c93_tree) c95_lin 35 with Ok b => bytes_eqb b (slice (fst (fst c93_run)) (35 * 2048) 2048) | _ => false end = true.
Proof. vm_all. Qed.

(** C96, partial: unpacking an image into a directory in the browser adds its tree
    to what is there, replacing files. Missing: existing files where the image has
    empty ones, and incomplete images; see the findings. *)
Theorem c96_unpack_partial :
  forall accepts file dest t w, is_image file t -> web_names accepts t -> w_left w = None -> w_fs w dest = Some HDir ->
  same_kinds dest t (w_fs w) -> no_leftovers dest t (w_fs w) ->
  exists w' evs, returns (fun fuel => web_unpack fuel accepts file dest w) (w', evs, Ok tt) /\ merged dest t (w_fs w) (w_fs w').
Proof. exact c96_lemma. Qed.
Print Assumptions c96_unpack_partial.

(** a ("hi"), S/c ("x"), S/e (empty). *)
Definition c96_tree : ftree := FDir [(text "a", FFile [x68; x69]); (text "S", FDir [(text "c", FFile [x78]); (text "e", FFile [])])].
Definition c96_img : list byte := fst (fst (c93_cli c96_tree)).
Definition any_name (n : str) : bool := true.
(** d/, d/a ("old"), d/S/, d/b ("k"), and [x] at d/S/e. *)
Definition c96_world (x : option hnode) : world :=
  mkWorld (fun q => if hpath_eqb q [] then Some HDir else if hpath_eqb q [text "d"] then Some HDir else if hpath_eqb q [text "d"; text "a"] then Some (HFile [x6f; x6c; x64])
                    else if hpath_eqb q [text "d"; text "S"] then Some HDir else if hpath_eqb q [text "d"; text "b"] then Some (HFile [x6b])
                    else if hpath_eqb q [text "d"; text "S"; text "e"] then x else None) None.
Definition c96_run (file : list byte) (x : option hnode) := web_unpack 20 any_name file [text "d"] (c96_world x).
Example c96_is_image : is_image c96_img c96_tree.
Proof.
  assert (S : source c96_tree) by (apply source_b_ok; vm_compute; reflexivity).
  apply (packed_is_image Debug); [exact S|]. apply (std_packs Debug c96_tree 10 []); [exact S|vm_compute; reflexivity].
Qed.
Example c96_case :
  is_image c96_img c96_tree /\ snd (c96_run c96_img None) = Ok tt
  /\ map (w_fs (fst (fst (c96_run c96_img None)))) [[text "d"; text "a"]; [text "d"; text "b"]; [text "d"; text "S"; text "c"]; [text "d"; text "S"; text "e"]]
     = [Some (HFile [x68; x69]); Some (HFile [x6b]); Some (HFile [x78]); Some (HFile [])].
Proof. split; [exact c96_is_image|]. vm_with (c96_run c96_img None). Qed.

(** Finding: an empty file of the image does not replace an existing file: it keeps
    its bytes, and there is no error. *)
Theorem c96_empty_file_refuted :
  exists fuel accepts file dest t w, is_image file t /\ w_left w = None /\ at_path t [text "S"; text "e"] (FFile [])
    /\ snd (web_unpack fuel accepts file dest w) = Ok tt
    /\ w_fs (fst (fst (web_unpack fuel accepts file dest w))) (dest ++ [text "S"; text "e"]) = Some (HFile [x6f]).
Proof.
  exists 20%nat, any_name, c96_img, [text "d"], c96_tree, (c96_world (Some (HFile [x6f]))).
  split; [exact c96_is_image|]. split; [reflexivity|]. split; [|vm_with (web_unpack 20 any_name c96_img [text "d"] (c96_world (Some (HFile [x6f]))))].
  eapply at_child; [right; left; reflexivity|]. eapply at_child; [right; left; reflexivity|apply at_here].
Qed.
Print Assumptions c96_empty_file_refuted.
Definition c96_small : ftree := FDir [(text "a", FFile [x68; x69])].
(** Finding: file data that is missing from the image is not noticed. *)
Theorem c96_truncated_refuted :
  exists img t k fuel accepts dest w, is_image img t /\ at_path t [text "a"] (FFile [x68; x69])
    /\ w_fs w (dest ++ [text "a"]) = Some (HFile [x6f; x6c; x64])
    /\ snd (web_unpack fuel accepts (firstn k img) dest w) = Ok tt
    /\ w_fs (fst (fst (web_unpack fuel accepts (firstn k img) dest w))) (dest ++ [text "a"]) = Some (HFile []).
Proof.
  exists (fst (fst (c93_cli c96_small))), c96_small, (N.to_nat 69632), 20%nat, any_name, [text "d"], (c96_world None).
  assert (S : source c96_small) by (apply source_b_ok; vm_compute; reflexivity).
  split; [apply (packed_is_image Debug); [exact S|]; apply (std_packs Debug c96_small 10 []); [exact S|vm_compute; reflexivity]|]. split; [eapply at_child; [left; reflexivity|apply at_here]|]. split; [reflexivity|].
  vm_with (web_unpack 20 any_name (firstn (N.to_nat 69632) (fst (fst (c93_cli c96_small)))) [text "d"] (c96_world None)).
Qed.
Print Assumptions c96_truncated_refuted.

(** C97: whatever the file is and whatever fails, unpacking in the browser changes
    nothing but entries below the chosen directory, and removes nothing. *)
Theorem c97_stays_below :
  forall fuel accepts file dest w, only_below dest (w_fs w) (w_fs (fst (fst (web_unpack fuel accepts file dest w)))).
Proof. exact c97_lemma. Qed.
Print Assumptions c97_stays_below.
(** The image that makes the command line tool write outside: here it is an error. *)
Definition c97_img (name : list byte) : list byte :=
  let r := record 0 0 34 2 32 name in
  fill 65536 x00 ++ volume_ser (volume_new (mkRegion 33 2048)) ++ r ++ fill (2048 - len r) xff ++ [x68; x69].
Definition c97_run (name : list byte) := web_unpack 20 any_name (c97_img name) [text "d"] (bare [[]; [text "d"]]).
Example c97_case :
  snd (c97_run [x2e; x2e; x2f; x78]) = Err (UHost HInvalidInput) /\ w_fs (fst (fst (c97_run [x2e; x2e; x2f; x78]))) [text "x"] = None
  /\ snd (c97_run [x78]) = Ok tt /\ w_fs (fst (fst (c97_run [x78]))) [text "d"; text "x"] = Some (HFile [x68; x69]).
Proof. vm_all. Qed.

(** C98, partial: unpacking announces the number of entries and reports each of them
    as done. Missing: empty files, see the finding. *)
Theorem c98_progress_partial :
  forall accepts file dest t w, is_image file t -> web_names accepts t -> w_left w = None -> w_fs w dest = Some HDir ->
  same_kinds dest t (w_fs w) -> every_file (fun b => b <> []) t ->
  exists w' evs, returns (fun fuel => web_unpack fuel accepts file dest w) (w', evs, Ok tt)
    /\ announced evs = Some (entry_count t - 1) /\ done_count evs = entry_count t - 1.
Proof. exact c98_lemma. Qed.
Print Assumptions c98_progress_partial.
(** Empty files are announced but not reported. *)
Theorem c98_empty_files_partial :
  forall accepts file dest t w, is_image file t -> web_names accepts t -> w_left w = None -> w_fs w dest = Some HDir ->
  same_kinds dest t (w_fs w) -> no_leftovers dest t (w_fs w) ->
  exists w' evs, returns (fun fuel => web_unpack fuel accepts file dest w) (w', evs, Ok tt) /\ merged dest t (w_fs w) (w_fs w')
    /\ announced evs = Some (entry_count t - 1) /\ done_count evs = shown_count t - 1.
Proof. exact c96_full. Qed.
Print Assumptions c98_empty_files_partial.
(** Finding: with an empty file the progress never reaches its end. *)
Theorem c98_progress_refuted :
  exists fuel accepts file dest t w, is_image file t /\ snd (web_unpack fuel accepts file dest w) = Ok tt
    /\ announced (snd (fst (web_unpack fuel accepts file dest w))) = Some 4 /\ done_count (snd (fst (web_unpack fuel accepts file dest w))) = 3.
Proof.
  exists 20%nat, any_name, c96_img, [text "d"], c96_tree, (c96_world None). split; [exact c96_is_image|]. vm_with (web_unpack 20 any_name c96_img [text "d"] (c96_world None)).
Qed.
Print Assumptions c98_progress_refuted.
Example c98_case :
  let t := FDir [(text "a", FFile [x68; x69]); (text "S", FDir [(text "c", FFile [x78])])] in
  let evs := snd (fst (web_unpack 20 any_name (fst (fst (c93_cli t))) [text "d"] (bare [[]; [text "d"]]))) in
  announced evs = Some 3 /\ done_count evs = 3.
Proof. intros t evs. subst evs. vm_with (web_unpack 20 any_name (fst (fst (c93_cli t))) [text "d"] (bare [[]; [text "d"]])). Qed.
