(** Properties C135, C136: where the rules of an overlay put files, and what unpacking
    makes of an image that was built with rules. *)
From Verif Require Import M_Base M_Util M_Layout M_Read M_Img M_Trie M_Cli M_Host M_Unpack M_Remap.
From Verif Require Import S_Read S_Img S_Trie S_Cli S_Unpack S_Remap S_Target.
From Verif Require Import P_Vm.
From Verif Require Import P_Base P_Witness P_More P_Src P_Host P_Unpack P_Target.
From Coq Require Import Init.Byte Strings.String.
From Coq Require Import List.
Local Close Scope string_scope.
Local Open Scope N_scope.

(** C135: the image path of a rule: the template with the captures filled in, without
    the dots at the start, gives the names between slashes; what is left of the host
    path below the matched part follows. *)
Theorem c135_image_path :
  forall m caps l suf r, braceless caps l -> ordinary suf ->
  rewrite_path m caps (show l) suf = Ok r <-> exists t p, undotted (filled caps l) t /\ names_of t p /\ r = p ++ suf.
Proof. exact c135_path. Qed.
Print Assumptions c135_image_path.

(** ... which is determined by the text. *)
Theorem c135_one_path :
  forall s t t' p p', undotted s t -> undotted s t' -> names_of t p -> names_of t' p' -> t = t' /\ p = p'.
Proof. exact c135_one. Qed.
Print Assumptions c135_one_path.

(** What a pattern is matched with: the names with slashes between them. *)
Theorem c135_matched_text : forall p, ordinary p -> candidate p = slashed p.
Proof. exact c135_text. Qed.
Print Assumptions c135_matched_text.

(** What is below a matched directory stays below its image path. *)
Theorem c135_below_a_match :
  forall m caps l s1 s2 r, braceless caps l -> ordinary s1 -> ordinary s2 ->
  rewrite_path m caps (show l) s1 = Ok r -> rewrite_path m caps (show l) (s1 ++ s2) = Ok (r ++ s2).
Proof. exact c135_below. Qed.
Print Assumptions c135_below_a_match.

(** "../{1}//o/" with "é" and the rest "x/.y" *)
Example c135_example :
  let l := map Lit (text "../") ++ [Hole 1] ++ map Lit (text "//o/") in
  let caps := fun n => if n =? 1 then Some [233] else None in
  braceless caps l /\ ordinary [text "x"; text ".y"] /\ show l = text "../{1}//o/"
  /\ rewrite_path Debug caps (show l) [text "x"; text ".y"] = Ok [[233]; text "o"; text "x"; text ".y"]
  /\ candidate [text "x"; text ".y"] = text "x/.y".
Proof.
  cbv zeta. split; [|split; [|vm_all]].
  - repeat constructor; try discriminate. intros H. vm_compute in H. intuition discriminate.
  - repeat constructor; try discriminate; intros H; vm_compute in H; intuition discriminate.
Qed.

(** C136: the names in an overlay have no slashes, and none is empty. *)
Theorem c136_names_are_ordinary :
  forall fuel m wax (fs : fsys (list byte)) cfg t tr, is_fdir t = true -> proper t -> unix_tree t -> presents fs t ->
  remap_new fuel m wax fs cfg = Ok tr ->
  exists t', presents (overlay tr fs) t' /\ proper t' /\ every_dir (fun cs => forall n, In n (map fst cs) -> n <> [] /\ ~ In 47 n) t'.
Proof. exact c136_names. Qed.
Print Assumptions c136_names_are_ordinary.

(** An image built with rules unpacks below the destination, whatever the rules are. *)
Theorem c136_unpacks_below :
  forall fuel m wax (fs : fsys (list byte)) cfg t tr, is_fdir t = true -> proper t -> unix_tree t -> presents fs t -> copies fs t ->
  remap_new fuel m wax fs cfg = Ok tr ->
  exists t', presents (overlay tr fs) t' /\ (small t' ->
    forall fuel' evs evs' img, create_xdvdfs_image fuel' m file_wdev (overlay tr fs) ([], evs) = ((img, evs'), Ok tt) ->
    is_image img t' /\
    forall fuel'' cwd image_path dest w, no_dotdot dest ->
    stays_below (place cwd dest) (w_fs w) (w_fs (fst (cmd_unpack fuel'' cwd image_path img (Some dest) w)))).
Proof. exact c136_lemma. Qed.
Print Assumptions c136_unpacks_below.

(** A glob language with literal patterns only. *)
Definition c136_wax (pat : str) : option glob := Some (fun s => if str_eqb pat s then Some (fun _ => None) else None).
Definition c136_tree : ftree := FDir [(text "x", FFile [x68; x69])].
Definition c136_trie (to : str) : trie mapent := match remap_new 5 Release c136_wax (std_fs c136_tree) [(text "x", to)] with Ok tr => tr | _ => trie_default end.
Definition c136_img (to : str) : list byte := fst (fst (create_xdvdfs_image 9 Release file_wdev (overlay (c136_trie to) (std_fs c136_tree)) ([], []))).
Definition c136_run (to : str) : world * res uerr unit := cmd_unpack 20 [] (text "i") (c136_img to) (Some (text "out")) (bare [[]]).

Definition c136_out : world * res uerr unit := c136_run (text "a/../../y").
Definition c136_in : world * res uerr unit := c136_run (text "o//y").

(** x goes to "a/../../y" and to "o//y" *)
Example c136_example :
  snd c136_out = Err (UHost HAlreadyExists) /\ w_fs (fst c136_out) [text "y"] = None /\ w_fs (fst c136_out) [text "out"; text "a"] = Some HDir
  /\ snd c136_in = Ok tt /\ w_fs (fst c136_in) [text "out"; text "o"; text "y"] = Some (HFile [x68; x69]).
Proof. vm_all. Qed.

(** C137, partial: unpacking an image built with rules restores the overlay. Missing:
    rules whose targets have "." or ".." as a name, or a NUL. *)
Theorem c137_built_images_unpack_partial :
  forall fuel m wax (fs : fsys (list byte)) cfg t tr, is_fdir t = true -> proper t -> unix_tree t -> presents fs t -> copies fs t ->
  remap_new fuel m wax fs cfg = Ok tr ->
  (forall keys h s r n, rules wax cfg keys -> at_path t h s -> maps_to m keys h r -> In n r -> n <> [46] /\ n <> [46; 46] /\ ~ In 0 n) ->
  exists t', presents (overlay tr fs) t' /\ (small t' ->
    forall fuel' evs evs' img, create_xdvdfs_image fuel' m file_wdev (overlay tr fs) ([], evs) = ((img, evs'), Ok tt) ->
    forall cwd image_path dest w, ready_for cwd dest t' w ->
    exists w', returns (fun fuel => cmd_unpack fuel cwd image_path img (Some dest) w) (w', Ok tt) /\ restored (place cwd dest) t' (w_fs w) (w_fs w')).
Proof. exact c137_lemma. Qed.
Print Assumptions c137_built_images_unpack_partial.

(** Finding: with the target "a/../y" the image is built without an error, with a
    directory called ".."; it cannot be unpacked. *)
Theorem c137_built_images_unpack_refuted :
  exists wax cfg t (tr : trie mapent) img, remap_new 5 Release wax (std_fs t) cfg = Ok tr /\ unix_tree t
    /\ (exists evs, create_xdvdfs_image 9 Release file_wdev (overlay tr (std_fs t)) ([], []) = ((img, evs), Ok tt))
    /\ snd (cmd_unpack 20 [] (text "i") img (Some (text "out")) (bare [[]])) = Err (UHost HAlreadyExists).
Proof.
  exists c136_wax, [(text "x", text "a/../y")], c136_tree, (c136_trie (text "a/../y")), (c136_img (text "a/../y")). ssplit.
  - assert (E : (match remap_new 5 Release c136_wax (std_fs c136_tree) [(text "x", text "a/../y")] with Ok _ => true | _ => false end) = true) by (vm_compute; reflexivity).
    unfold c136_trie. destruct (remap_new 5 Release c136_wax (std_fs c136_tree) [(text "x", text "a/../y")]); [reflexivity|discriminate..].
  - apply unix_tree_ok. reflexivity.
  - exists (snd (fst (create_xdvdfs_image 9 Release file_wdev (overlay (c136_trie (text "a/../y")) (std_fs c136_tree)) ([], [])))).
    assert (H : snd (create_xdvdfs_image 9 Release file_wdev (overlay (c136_trie (text "a/../y")) (std_fs c136_tree)) ([], [])) = Ok tt) by (vm_compute; reflexivity).
    unfold c136_img. rewrite <- H. destruct (create_xdvdfs_image 9 Release file_wdev _ ([], [])) as [[i ev] r]. reflexivity.
  - vm_compute. reflexivity.
Qed.
Print Assumptions c137_built_images_unpack_refuted.
Definition c137_run : world * res uerr unit := c136_run (text "./a/b/.y").
Example c137_example : snd c137_run = Ok tt /\ w_fs (fst c137_run) [text "out"; text "a"; text "b"; text ".y"] = Some (HFile [x68; x69]).
Proof. vm_all. Qed.
