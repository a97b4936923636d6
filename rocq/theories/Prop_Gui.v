(** Properties C89-C92: the pages of xdvdfs-web. *)
From Verif Require Import M_Base M_Util M_Layout M_Read M_Img M_Cli M_Unpack M_Exiso M_Host M_Gui.
From Verif Require Import S_Avl S_Codec S_Table S_Read S_Img S_Unpack S_Gui.
From Verif Require Import P_Vm.
From Verif Require Import P_Base P_Witness P_More P_Src P_Repack P_Gui P_Progress.
From Coq Require Import Init.Byte Strings.String.
From Coq Require Import List.
Local Close Scope string_scope.
Local Open Scope N_scope.

(** C89, partial: whatever the user and the jobs do, the page for packing neither
    panics nor runs two jobs, if everything that is chosen as an input has a file
    name. Missing: inputs without a file name, see the finding. *)
Theorem c89_no_crash_partial :
  forall b js, history PackPage (fun _ m => match m with SetInput p => file_name (pick_name p) <> None | _ => True end) b js ->
    ~ crashes PackPage (fun _ m => match m with SetInput p => file_name (pick_name p) <> None | _ => True end) b js /\ (length js <= 1)%nat.
Proof. exact c89_lemma. Qed.
Print Assumptions c89_no_crash_partial.
(** There is never more than one job, and no button can be used while it runs. *)
Theorem c89_one_job :
  forall ok b js, history PackPage ok b js -> (length js <= 1)%nat /\ forall v, js <> [] -> builder_view PackPage b = Ok v -> v_enabled v = false.
Proof. exact c89_jobs. Qed.
Print Assumptions c89_one_job.

(** Choosing a folder and an output starts a job. *)
Example c89_case :
  exists b v, history PackPage anything b [(PickDir (text "game"), text "game.xiso.iso")]
    /\ builder_view PackPage b = Ok v /\ v_enabled v = false /\ v_output v = Some (Some (text "game.xiso.iso")).
Proof.
  set (b2 := mkBuilder SelectOutput (Some IDir) (Some (PickDir (text "game"))) None 0 0). set (v2 := mkView true (Some IDir) (Some (Some (text "game.xiso.iso"))) 0).
  set (b3 := mkBuilder (Packing CreatingFilesystem) (Some IDir) (Some (PickDir (text "game"))) (Some (text "game.xiso.iso")) 0 0).
  assert (V : builder_view PackPage b2 = Ok v2) by (vm_compute; reflexivity).
  assert (O : offers v2 (SetOutput (text "game.xiso.iso"))) by (split; [reflexivity|discriminate]).
  assert (U : builder_update b2 (SetOutput (text "game.xiso.iso")) = Ok (b3, Some (PickDir (text "game"), text "game.xiso.iso"))) by reflexivity.
  assert (H2 : history PackPage anything b2 []).
  { pose proof (h_user PackPage anything _ [] _ (SetInputType IDir) _ _ (h_start _ _) eq_refl (conj eq_refl I) I eq_refl) as H1.
    exact (h_user PackPage anything _ [] _ (SetInput (PickDir (text "game"))) _ _ H1 eq_refl (conj eq_refl eq_refl) I eq_refl). }
  pose proof (h_user PackPage anything b2 [] v2 (SetOutput (text "game.xiso.iso")) b3 _ H2 V O I U) as H3.
  exists b3, (mkView false (Some IDir) (Some (Some (text "game.xiso.iso"))) 0). split; [exact H3|]. vm_all.
Qed.
(** Finding: choosing the root directory of the host breaks the page. *)
Theorem c89_no_crash_refuted :
  exists b, history PackPage anything b [] /\ b_input b = Some (PickDir (text "/")) /\ crashes PackPage anything b [].
Proof.
  pose proof (h_user PackPage anything _ [] _ (SetInputType IDir) _ _ (h_start _ _) eq_refl (conj eq_refl I) I eq_refl) as H1.
  pose proof (h_user PackPage anything _ [] _ (SetInput (PickDir (text "/"))) _ _ H1 eq_refl (conj eq_refl eq_refl) I eq_refl) as H2.
  eexists. split; [exact H2|]. split; [reflexivity|]. left. intros v. vm_compute. discriminate.
Qed.
Print Assumptions c89_no_crash_refuted.

(** C90, partial: the page for unpacking never runs two jobs, and it does not panic
    if the user chooses an input before every output. Missing: see the finding. *)
Theorem c90_one_job :
  forall ok l u js, uhistory ok l u js -> (length js <= 1)%nat.
Proof. exact (fun ok l u js H => ucalm_jobs u js (ucalm_history ok l u js H)). Qed.
Print Assumptions c90_one_job.
Theorem c90_no_crash_partial :
  forall l u js, uhistory (fun l m => match m with USetOutput _ => exists n l', l = USetInput (PickFile n) :: l' | _ => True end) l u js ->
    ~ ucrashes (fun l m => match m with USetOutput _ => exists n l', l = USetInput (PickFile n) :: l' | _ => True end) l u.
Proof. exact c90_lemma. Qed.
Print Assumptions c90_no_crash_partial.

(** Unpacking a.iso to the folder o. *)
Definition c90_messages : list umsg := [USetOutput (text "o"); USetInput (PickFile (text "a.iso"))].
Example c90_case :
  exists u, uhistory anything c90_messages u [(text "a.iso", text "o")] /\ uv_enabled (unpacker_view u) = false.
Proof.
  pose proof (uh_user anything [] _ [] (USetInput (PickFile (text "a.iso"))) _ _ (uh_start _) (conj eq_refl I) I eq_refl) as H1.
  pose proof (uh_user anything _ _ [] (USetOutput (text "o")) _ _ H1 (conj eq_refl eq_refl) I eq_refl) as H2.
  eexists. split; [exact H2|reflexivity].
Qed.
(** Finding: when the image has been unpacked, the button for the output can still be
    used; choosing another folder panics. *)
Theorem c90_no_crash_refuted :
  exists u, uhistory anything c90_messages u [] /\ u_state u = UFinished /\ ucrashes anything c90_messages u.
Proof.
  pose proof (uh_user anything [] _ [] (USetInput (PickFile (text "a.iso"))) _ _ (uh_start _) (conj eq_refl I) I eq_refl) as H1.
  pose proof (uh_user anything _ _ [] (USetOutput (text "o")) _ _ H1 (conj eq_refl eq_refl) I eq_refl) as H2.
  pose proof (uh_end anything _ _ [] _ [] UFinished _ H2 I eq_refl) as H3.
  eexists. split; [exact H3|]. split; [reflexivity|]. exists (USetOutput (text "p")). split; [split; reflexivity|]. split; [exact I|]. intros x. vm_compute. discriminate.
Qed.
Print Assumptions c90_no_crash_refuted.

(** C91, partial: the page for compressing neither panics nor runs two jobs, if the
    user waits for the end of a job. Missing: the buttons are not disabled while the
    sectors are compressed, see the findings. *)
Theorem c91_patient_partial :
  forall b js, history CompressPage (fun js _ => js = []) b js -> ~ crashes CompressPage (fun js _ => js = []) b js /\ (length js <= 1)%nat.
Proof. exact c91_lemma. Qed.
Print Assumptions c91_patient_partial.

Example c91_case :
  exists b v, history CompressPage anything b [(PickDir (text "d"), text "o")] /\ builder_view CompressPage b = Ok v /\ b_state b = Compressing.
Proof. destruct c91_compressing as (b & H & _ & _ & _ & ->). eexists _, _. split; [exact H|]. vm_all. Qed.
(** Finding: while a job compresses, the user can start another one. *)
Theorem c91_one_job_refuted :
  exists b js, history CompressPage anything b js /\ js = [(PickDir (text "d"), text "o"); (PickDir (text "d"), text "o")].
Proof.
  destruct c91_compressing as (b & H & _ & _ & _ & ->).
  pose proof (h_user CompressPage anything _ [_] (mkView true (Some IDir) (Some None) 0) (SetOutput (text "o")) _ _ H eq_refl (c91_offers _) I eq_refl) as H1.
  eexists _, _. split; [exact H1|vm_compute; reflexivity].
Qed.
Print Assumptions c91_one_job_refuted.
(** Finding: a user who changes the kind of the input while a job compresses is
    offered the button for the output when it ends; using it panics. *)
Theorem c91_no_crash_refuted :
  exists b, history CompressPage anything b [] /\ b_state b = Finished /\ crashes CompressPage anything b [].
Proof.
  destruct c91_compressing as (b & H & _ & _ & _ & ->).
  pose proof (h_user CompressPage anything _ [_] _ (SetInputType IFile) _ _ H eq_refl (conj eq_refl I) I eq_refl) as H1.
  pose proof (h_end CompressPage anything _ [] _ [] (ChangeState Finished) _ H1 I eq_refl) as H2.
  eexists. split; [exact H2|]. split; [reflexivity|]. right. eexists _, (SetOutput (text "p")). split; [vm_compute; reflexivity|]. split; [split; [reflexivity|discriminate]|]. split; [exact I|]. intros x. vm_compute. discriminate.
Qed.
Print Assumptions c91_no_crash_refuted.

(** C92: when packing has succeeded, the counters of the page are both the number of
    entries of the source. *)
Theorem c92_progress :
  forall m t fs fuel img evs b, source t -> presents fs t -> copies fs t ->
    create_xdvdfs_image fuel m file_wdev fs ([], []) = ((img, evs), Ok tt) -> b_done b = 0 ->
    exists l, entry_paths t at_path l
      /\ b_count (fold_left (fun b e => match builder_update b (UpdateProgress e) with Ok (b', _) => b' | _ => b end) evs b) = len l
      /\ b_done (fold_left (fun b e => match builder_update b (UpdateProgress e) with Ok (b', _) => b' | _ => b end) evs b) = len l.
Proof. exact c92_lemma. Qed.
Print Assumptions c92_progress.

(** Three entries in two directories. *)
Definition c92_tree : ftree := FDir [(text "a", FFile [x68]); (text "S", FDir [(text "c", FFile [])])].
Notation c92_run := (create_xdvdfs_image 10 Debug file_wdev (std_fs c92_tree) ([], [])).
Definition c92_end (evs : list event) : builder :=
  fold_left (fun b e => match builder_update b (UpdateProgress e) with Ok (b', _) => b' | _ => b end) evs
    (mkBuilder (Packing CreatingFilesystem) (Some IDir) (Some (PickDir (text "d"))) (Some (text "o")) 0 0).
Example c92_case :
  builder_update (mkBuilder SelectOutput (Some IDir) (Some (PickDir (text "d"))) None 7 7) (SetOutput (text "o"))
    = Ok (mkBuilder (Packing CreatingFilesystem) (Some IDir) (Some (PickDir (text "d"))) (Some (text "o")) 0 0, Some (PickDir (text "d"), text "o"))
  /\ snd c92_run = Ok tt
  /\ c92_end (snd (fst c92_run)) = mkBuilder (Packing WaitingForFlush) (Some IDir) (Some (PickDir (text "d"))) (Some (text "o")) 3 3
  /\ percent 3 3 = 100.
Proof. split; [reflexivity|]. split; [vm_compute; reflexivity|]. vm_all. Qed.
(** While packing runs, no more is shown as done than there is; at the end all of it
    is. *)
Theorem c92_during_packing :
  forall m t fs fuel img evs l1 l2 b b', source t -> presents fs t -> copies fs t ->
    create_xdvdfs_image fuel m file_wdev fs ([], []) = ((img, evs), Ok tt) -> b_done b = 0 -> evs = l1 ++ l2 ->
    receives b (map UpdateProgress l1) b' ->
    b_done b' <= b_count b'
    /\ forall k v, builder_view k b' = Ok v -> v_percent v <= 100 /\ (l2 = [] -> b_count b' <> 0 -> v_percent v = 100).
Proof. exact c92_during. Qed.
Print Assumptions c92_during_packing.
(** After the first of three entries the page shows 33 percent. *)
Example c92_third :
  exists b, receives (mkBuilder (Packing PackingImage) (Some IDir) (Some (PickDir (text "d"))) (Some (text "o")) 0 0) (map UpdateProgress (firstn 6 (snd (fst c92_run)))) b
    /\ b_count b = 3 /\ b_done b = 1 /\ (let* v := builder_view PackPage b in Ok (v_percent v)) = Ok 33.
Proof.
  exists (mkBuilder (Packing PackingImage) (Some IDir) (Some (PickDir (text "d"))) (Some (text "o")) 3 1).
  split; [|vm_all].
  eassert (E : firstn 6 (snd (fst c92_run)) = _) by (vm_compute; reflexivity). rewrite E. cbn [map].
  repeat (eapply rc_cons; [reflexivity|]). apply rc_nil.
Qed.

(** Every job starts with both counters at zero, and the page for packing shows none
    while the user makes selections; the one for compressing neither, if the user waits
    for the end of a job. *)
Theorem c92_start :
  forall b m b' j, builder_update b m = Ok (b', Some j) -> b_count b' = 0 /\ b_done b' = 0.
Proof. exact c92_start_lemma. Qed.
Print Assumptions c92_start.
Theorem c92_fresh :
  forall k (ok : list (pick * str) -> bmsg -> Prop) b js, k = PackPage \/ (forall js m, ok js m -> js = []) -> history k ok b js ->
    b_state b = SelectInputType \/ b_state b = SelectInput \/ b_state b = SelectOutput -> b_count b = 0 /\ b_done b = 0.
Proof. exact c92_fresh_states. Qed.
Print Assumptions c92_fresh.

(** C111: while sectors are compressed, the browser shows how many are done, ... *)
Theorem c111_browser_counts :
  forall n k b b', k <= n ->
    receives b (map UpdateCompression (web_reports (CSectorCount n :: repeat CSectorFinished (N.to_nat k)))) b' -> b_count b' = n /\ b_done b' = k.
Proof. exact c111_web. Qed.
Print Assumptions c111_browser_counts.
(** ... the desktop application rounds down to multiples of 739, ... *)
Theorem c111_desktop_counts :
  forall n k b b', k <= n ->
    receives b (map UpdateCompression (desk_reports 0 (CSectorCount n :: repeat CSectorFinished (N.to_nat k)))) b' -> b_count b' = n /\ b_done b' = k - k mod 739.
Proof. exact c111_desk. Qed.
Print Assumptions c111_desktop_counts.
(** ... the percentage never decreases nor exceeds 100, ... *)
Theorem c111_never_back :
  forall rep n k1 k2 b1 b2 c, rep = web_reports \/ rep = desk_reports 0 -> k1 <= k2 -> k2 <= n ->
    receives c (map UpdateCompression (rep (CSectorCount n :: repeat CSectorFinished (N.to_nat k1)))) b1 ->
    receives c (map UpdateCompression (rep (CSectorCount n :: repeat CSectorFinished (N.to_nat k2)))) b2 ->
    forall k v1 v2, builder_view k b1 = Ok v1 -> builder_view k b2 = Ok v2 -> v_percent v1 <= v_percent v2 /\ v_percent v2 <= 100.
Proof. exact P_Progress.c111_never_back. Qed.
Print Assumptions c111_never_back.
(** ... and it ends at 100. *)
Theorem c111_end :
  forall rep n b b', rep = web_reports \/ rep = desk_reports 0 -> receives b (map UpdateCompression (rep (compression n))) b' ->
    b_count b' = n /\ b_done b' = n /\ forall k v, builder_view k b' = Ok v -> n <> 0 -> v_percent v = 100.
Proof. exact P_Progress.c111_end. Qed.
Print Assumptions c111_end.

(** 740 of 1000 sectors. *)
Example c111_case :
  web_reports (CSectorCount 3 :: repeat CSectorFinished 2) = [SectorCount 3; SectorsDone 1; SectorsDone 1]
  /\ desk_reports 0 (CSectorCount 1000 :: repeat CSectorFinished 740) = [SectorCount 1000; SectorsDone 739]
  /\ desk_reports 0 (compression 1) = [SectorCount 1; CompressionFinished]
  /\ receives (mkBuilder Compressing (Some IDir) (Some (PickDir (text "d"))) (Some (text "o")) 7 7) (map UpdateCompression [SectorCount 1000; SectorsDone 739])
       (mkBuilder Compressing (Some IDir) (Some (PickDir (text "d"))) (Some (text "o")) 1000 739)
  /\ (let* v := builder_view CompressPage (mkBuilder Compressing (Some IDir) (Some (PickDir (text "d"))) (Some (text "o")) 1000 739) in Ok (v_percent v)) = Ok 73.
Proof.
  ssplit; try (vm_compute; reflexivity). cbn [map]. repeat (eapply rc_cons; [reflexivity|]). apply rc_nil.
Qed.
