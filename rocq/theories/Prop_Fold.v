(** Property C164: unpacking onto a host that does not distinguish all names. [f] folds
    one character; names with the same folded form are the same name to the host. *)
From Verif Require Import M_Base M_Util M_Layout M_Read M_Img M_Cli M_Host M_Unpack M_Fold.
From Verif Require Import S_Codec S_Read S_Img S_Check S_Cli S_Unpack S_Fold.
From Verif Require Import P_Vm.
From Verif Require Import P_Base P_Witness P_More P_Src P_Cli P_Host P_Unpack P_Fold.
From Coq Require Import Init.Byte Strings.String.
From Coq Require Import List.
Local Close Scope string_scope.
Local Open Scope N_scope.

(** C164, partial: the tree is restored, with folded names, if in no directory two names
    have the same folded form. Missing: trees with such names (see the refutation). *)
Theorem c164_apart_partial :
  forall f cwd file dest t w, folding f -> is_image file t -> unix_tree t -> kept_apart f t -> ready_for cwd (map f dest) t w ->
  exists w', returns (fun fuel => fold_unpack f fuel cwd file dest w) (w', Ok tt)
    /\ restored (place cwd (map f dest)) (fold_tree f t) (w_fs w) (w_fs w').
Proof. exact (fun f cwd file dest t w HF => c164_lemma f HF cwd file dest t w). Qed.
Print Assumptions c164_apart_partial.

(** On a host that folds ASCII letters only, every image is restored: tables that are
    sorted as the format demands have no two such names. *)
Theorem c164_ascii :
  forall cwd file dest t w, is_image file t -> unix_tree t -> ready_for cwd (map upper dest) t w ->
  exists w', returns (fun fuel => fold_unpack upper fuel cwd file dest w) (w', Ok tt)
    /\ restored (place cwd (map upper dest)) (fold_tree upper t) (w_fs w) (w_fs w').
Proof. exact c164_ascii_lemma. Qed.
Print Assumptions c164_ascii.

(** Without folding this is the tool of C48. *)
Theorem c164_no_folding :
  forall fuel cwd image_path file dest w, fold_unpack (fun c => c) fuel cwd file dest w = cmd_unpack fuel cwd image_path file (Some dest) w.
Proof. exact c164_id_lemma. Qed.
Print Assumptions c164_no_folding.

(** Two files whose names differ in ASCII letters and in U+00E9, U+00E8, in a directory. *)
Definition c164_tree : ftree :=
  FDir [(text "dir", FDir [([112; 233], FFile [x68; x69]); ([80; 232], FFile [x78])])].
Definition c164_img : list byte := fst (fst (create_xdvdfs_image 10 Debug file_wdev (std_fs c164_tree) ([], []))).
Definition c164_run : world * res uerr unit := fold_unpack latin_fold 20 [] c164_img (text "out") (bare [[]]).
Example c164_example :
  source c164_tree /\ packs Debug c164_tree c164_img /\ folding latin_fold /\ unix_tree c164_tree /\ kept_apart latin_fold c164_tree
  /\ ready_for [] (map latin_fold (text "out")) c164_tree (bare [[]])
  /\ snd c164_run = Ok tt
  /\ map (w_fs (fst c164_run)) [[text "OUT"; text "DIR"; [80; 201]]; [text "OUT"; text "DIR"; [80; 200]]; [text "out"]]
     = [Some (HFile [x68; x69]); Some (HFile [x78]); None].
Proof.
  assert (S : source c164_tree) by (apply source_b_ok; vm_compute; reflexivity). split; [exact S|].
  split; [apply (std_packs Debug c164_tree 10 []); [exact S|vm_compute; reflexivity]|]. split; [exact latin_folding|].
  split; [apply unix_tree_ok; vm_compute; reflexivity|].
  split; [apply (dirs_b_ok (fun cs => nodup_b (map (fun c => map latin_fold (fst c)) cs))); [intros cs; apply nodup_b_ok|vm_compute; reflexivity]|].
  split; [apply bare_ready; [apply unix_name_b_ok; reflexivity|discriminate]|]. vm_all.
Qed.

(** Finding: names are compared ignoring the case of ASCII letters only, so a directory
    may have both U+00E9 and U+00C9. On a host that folds these letters as well,
    unpacking reports success, but of the two files only one is there. *)
Definition c164_twins : ftree := FDir [([233], FFile [x68; x69]); ([201], FFile [x78])].
Definition c164_twins_img : list byte := fst (fst (create_xdvdfs_image 10 Debug file_wdev (std_fs c164_twins) ([], []))).
Theorem c164_all_files_refuted :
  exists f t img w fuel dest n b, folding f /\ source t /\ packs Debug t img /\ unix_tree t /\ ready_for [] (map f dest) t w
    /\ at_path t [n] (FFile b) /\ snd (fold_unpack f fuel [] img dest w) = Ok tt
    /\ w_fs (fst (fold_unpack f fuel [] img dest w)) (place [] (map f dest) ++ [map f n]) <> Some (HFile b).
Proof.
  exists latin_fold, c164_twins, c164_twins_img, (bare [[]]), 20%nat, (text "out"), [233], [x68; x69].
  assert (S : source c164_twins) by (apply source_b_ok; vm_compute; reflexivity).
  assert (E1 : snd (fold_unpack latin_fold 20 [] c164_twins_img (text "out") (bare [[]])) = Ok tt) by (vm_compute; reflexivity).
  assert (E2 : w_fs (fst (fold_unpack latin_fold 20 [] c164_twins_img (text "out") (bare [[]]))) (place [] (map latin_fold (text "out")) ++ [map latin_fold [233]]) = Some (HFile [x78])) by (vm_compute; reflexivity).
  split; [exact latin_folding|]. split; [exact S|]. split; [apply (std_packs Debug c164_twins 10 []); [exact S|vm_compute; reflexivity]|].
  split; [apply unix_tree_ok; vm_compute; reflexivity|]. split; [apply bare_ready; [apply unix_name_b_ok; reflexivity|discriminate]|].
  split; [eapply at_child; [left; reflexivity|apply at_here]|]. split; [exact E1|].
  intros H. pose proof (eq_trans (eq_sym E2) H) as F. discriminate F.
Qed.
Print Assumptions c164_all_files_refuted.
