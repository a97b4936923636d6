(** Property C150: pages with dialogs. *)
From Verif Require Import M_Base M_Util M_Img M_Check M_Cli M_Unpack M_Exiso M_Host M_Gui M_Picker S_Gui S_Picker P_Vm P_Base P_Gui P_Picker.
From Coq Require Import Strings.String.
From Coq Require Import List.
Local Close Scope string_scope.
Local Open Scope N_scope.

(** C150, partial: where an open dialog locks the page, the page for packing reaches exactly the
    states that it reaches if dialogs are answered at once (C89); there is at most one dialog, and
    none while a job runs. Missing: dialogs that do not lock the page, see the findings. *)
Theorem c150_pack_partial :
  forall b js, (exists ds, session PackPage modal b ds js) <-> history PackPage (fun _ _ => True) b js.
Proof. exact c150_pack_lemma. Qed.
Print Assumptions c150_pack_partial.
Theorem c150_one_dialog_partial :
  forall b ds js, session PackPage modal b ds js -> (length js <= 1)%nat /\ (length ds <= 1)%nat /\ (ds = [] \/ js = []).
Proof. exact c150_jobs_lemma. Qed.
Print Assumptions c150_one_dialog_partial.
(** The same for compressing, if the user waits for the end of jobs (C91), and for unpacking (C90). *)
Theorem c150_compress_partial :
  forall b js, (exists ds, session CompressPage modal_patient b ds js) <-> history CompressPage (fun js _ => js = []) b js.
Proof. exact c150_compress_lemma. Qed.
Print Assumptions c150_compress_partial.
Theorem c150_unpack_partial :
  forall u js, (exists ds, usession (fun ds => ds = []) u ds js) <-> exists l, uhistory (fun _ _ => True) l u js.
Proof. exact c150_unpack_lemma. Qed.
Print Assumptions c150_unpack_partial.
(** A dialog that is left without a choice changes nothing. *)
Theorem c150_cancel :
  (forall k b d, answer k b d None = Ok (b, None)) /\ (forall u d, uanswer u d None = Ok (u, None)).
Proof. exact (conj (fun _ _ _ => eq_refl) (fun _ _ => eq_refl)). Qed.
Print Assumptions c150_cancel.

(** The page after the folder "game.v1" has been chosen. *)
Definition c150_typed (t : itype) : builder := mkBuilder SelectInput (Some t) None None 0 0.
Definition c150_chosen (t : itype) : builder := mkBuilder SelectOutput (Some t) (Some (PickDir (text "game.v1"))) None 0 0.
Definition c150_folder : dialog := mkDialog InputButton OpenDirectory.
Definition c150_save : dialog := mkDialog OutputButton (SaveFile (Some (text "game.v1.xiso.iso"))).
Example c150_case :
  session PackPage modal (c150_chosen IDir) [c150_save] [] /\ session PackPage modal (c150_chosen IDir) [] []
  /\ session PackPage modal (mkBuilder (Packing CreatingFilesystem) (Some IDir) (Some (PickDir (text "game.v1"))) (Some (text "o")) 0 0) [] [(PickDir (text "game.v1"), text "o")].
Proof.
  pose proof (s_type PackPage modal _ [] [] _ IDir _ (s_start _ _) eq_refl eq_refl eq_refl eq_refl) as H1.
  pose proof (s_click PackPage modal _ [] [] _ InputButton c150_folder H1 eq_refl eq_refl eq_refl) as H2.
  pose proof (s_answer PackPage modal _ [] _ [] [] (Some (text "game.v1")) _ _ H2 eq_refl) as H3.
  pose proof (s_click PackPage modal _ [] [] _ OutputButton c150_save H3 eq_refl eq_refl eq_refl) as H4.
  split; [exact H4|]. split; [exact (s_answer PackPage modal _ [] _ [] [] None _ _ H4 eq_refl)|exact (s_answer PackPage modal _ [] _ [] [] (Some (text "o")) _ _ H4 eq_refl)].
Qed.

(** Finding: the code itself does not lock the page while a dialog is open. Clicking twice on the
    button for the output runs two jobs; ... *)
Theorem c150_two_jobs_refuted :
  exists b js, session PackPage nothing_forbidden b [] js /\ js = [(PickDir (text "game.v1"), text "p"); (PickDir (text "game.v1"), text "o")].
Proof.
  pose proof (s_type PackPage nothing_forbidden _ [] [] _ IDir _ (s_start _ _) I eq_refl eq_refl eq_refl) as H1.
  pose proof (s_click PackPage nothing_forbidden _ [] [] _ InputButton c150_folder H1 I eq_refl eq_refl) as H2.
  pose proof (s_answer PackPage nothing_forbidden _ [] _ [] [] (Some (text "game.v1")) _ _ H2 eq_refl) as H3.
  pose proof (s_click PackPage nothing_forbidden _ [] [] _ OutputButton c150_save H3 I eq_refl eq_refl) as H4.
  pose proof (s_click PackPage nothing_forbidden _ _ [] _ OutputButton c150_save H4 I eq_refl eq_refl) as H5.
  pose proof (s_answer PackPage nothing_forbidden _ [] _ _ [] (Some (text "o")) _ _ H5 eq_refl) as H6.
  pose proof (s_answer PackPage nothing_forbidden _ [] _ [] _ (Some (text "p")) _ _ H6 eq_refl) as H7.
  eexists _, _. split; [exact H7|vm_compute; reflexivity].
Qed.
Print Assumptions c150_two_jobs_refuted.
(** ... changing the kind of the input while its dialog is open leaves a folder as the image file,
    and the suggested name loses its end; ... *)
Theorem c150_kind_refuted :
  exists b v, session PackPage nothing_forbidden b [] [] /\ b_type b = Some IFile /\ b_input b = Some (PickDir (text "game.v1"))
    /\ builder_view PackPage b = Ok v /\ v_output v = Some (Some (text "game.xiso.iso")).
Proof.
  pose proof (s_type PackPage nothing_forbidden _ [] [] _ IDir _ (s_start _ _) I eq_refl eq_refl eq_refl) as H1.
  pose proof (s_click PackPage nothing_forbidden _ [] [] _ InputButton c150_folder H1 I eq_refl eq_refl) as H2.
  pose proof (s_type PackPage nothing_forbidden _ _ [] _ IFile _ H2 I eq_refl eq_refl eq_refl) as H3.
  pose proof (s_answer PackPage nothing_forbidden _ [] _ [] [] (Some (text "game.v1")) _ _ H3 eq_refl) as H4.
  eexists _, _. split; [exact H4|]. split; [reflexivity|]. split; [reflexivity|]. split; vm_compute; reflexivity.
Qed.
Print Assumptions c150_kind_refuted.
(** ... and answering a second dialog for the folder to unpack to panics. *)
Theorem c150_unpack_refuted :
  exists u d js, usession (fun _ => True) u [d] js /\ length js = 1%nat /\ forall x, uanswer u d (Some (text "p")) <> Ok x.
Proof.
  pose proof (us_click (fun _ => True) _ [] [] InputButton (mkDialog InputButton OpenFile) (us_start _) I eq_refl) as H1.
  pose proof (us_answer (fun _ => True) _ [] _ [] [] (Some (text "a.iso")) _ _ H1 eq_refl) as H2.
  pose proof (us_click (fun _ => True) _ _ [] OutputButton (mkDialog OutputButton OpenDirectory) H2 I eq_refl) as H3.
  pose proof (us_click (fun _ => True) _ _ [] OutputButton (mkDialog OutputButton OpenDirectory) H3 I eq_refl) as H4.
  pose proof (us_answer (fun _ => True) _ [] _ _ [] (Some (text "o")) _ _ H4 eq_refl) as H5.
  eexists _, _, _. split; [exact H5|]. split; [reflexivity|]. intros x. vm_compute. discriminate.
Qed.
Print Assumptions c150_unpack_refuted.
