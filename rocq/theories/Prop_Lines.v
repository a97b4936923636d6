(** Property C174: the lines that pack and build-image print while they pack. [plus]
    tells the two commands apart; [show] writes a path. *)
From Verif Require Import M_Base M_Util M_Layout M_Read M_Img M_Dev M_Trie M_Remap M_Cli M_Lines.
From Verif Require Import S_Read S_Img S_Lines.
From Verif Require Import P_Base P_Src P_Geom P_Lines.
From Coq Require Import Init.Byte Strings.String.
From Coq Require Import List.
Local Close Scope string_scope.
Local Open Scope N_scope.

(** C174, partial: on success the lines are numbered from 1 to their number; those that
    say "dir" tell each directory once, and those that say "file" each entry but the
    root once, all with the sector in the image. Missing: a directory is also told by a
    line that says "file". *)
Theorem c174_lines_partial :
  forall plus show m t fs fuel img evs, source t -> presents fs t -> copies fs t ->
  create_xdvdfs_image fuel m file_wdev fs ([], []) = ((img, evs), Ok tt) ->
  exists l v, progress_lines plus show evs = numbered show 1 (len l) l /\ NoDup l /\ read_volume (file_dev img) = Ok v
   /\ (forall p s, In (true, p, s) l <-> exists cs r, at_path t p (FDir cs) /\ region_at (file_dev img) (v_root v) p r /\ r_sector r = s)
   /\ (forall p s, In (false, p, s) l <-> p <> [] /\ exists t' r, at_path t p t' /\ region_at (file_dev img) (v_root v) p r /\ r_sector r = s).
Proof. exact c174_lemma. Qed.
Print Assumptions c174_lines_partial.

(** Whatever was reported, also by runs that fail: line number [k] says so. *)
Theorem c174_numbers :
  forall plus show evs k x, nth_error (progress_lines plus show evs) k = Some x -> exists n y, x = line_of show (N.of_nat k + 1) n y.
Proof. exact c174_numbers_lemma. Qed.
Print Assumptions c174_numbers.

(** Whatever the destination and the source do: the lines are numbered from 1 on, all of
    the same total. *)
Theorem c174_any_run :
  forall D plus show fuel m (W : wdev D) (fs : fsys D) d d' evs r, create_xdvdfs_image fuel m W fs (d, []) = ((d', evs), r) ->
  exists n l, progress_lines plus show evs = numbered show 1 n l.
Proof. exact c174_any_lemma. Qed.
Print Assumptions c174_any_run.

Definition c174_tree : ftree := FDir [(text "a", FFile [x41]); (text "d", FDir [(text "B", FFile [])])].
Definition c174_run := create_xdvdfs_image 10 Debug file_wdev (std_fs c174_tree) ([], []).
Definition c174_lines (plus : bool) : list str := progress_lines plus as_string (snd (fst c174_run)).

(** A destination that fails after the first table. *)
Definition c174_failed := create_xdvdfs_image 10 Debug (crash_wdev (IoOther 5)) (crash_fs (IoOther 5) c174_tree) (([], 2048), []).

(** Finding: the directory "d" is told twice, and one line calls it a file. *)
Theorem c174_told_once_refuted :
  exists t cs, source t /\ at_path t [text "d"] (FDir cs)
   /\ snd (create_xdvdfs_image 10 Debug file_wdev (std_fs t) ([], [])) = Ok tt
   /\ exists l1 l2, progress_lines true as_string (snd (fst (create_xdvdfs_image 10 Debug file_wdev (std_fs t) ([], []))))
        = l1 ++ [text "[3/5] Added file: /d at sector 35"; text "[4/5] Added dir: /d at sector 35"] ++ l2.
Proof.
  exists c174_tree, [(text "B", FFile [])]. split; [apply (source_b_ok c174_tree); vm_compute; reflexivity|].
  split; [eapply at_child; [right; left; reflexivity|apply at_here]|]. split; [vm_compute; reflexivity|].
  exists [text "[1/5] Added dir: / at sector 33"; text "[2/5] Added file: /a at sector 34"], [text "[5/5] Added file: /d/B at sector 36"]. vm_compute. reflexivity.
Qed.
Print Assumptions c174_told_once_refuted.

Example c174_example :
  snd c174_run = Ok tt
  /\ c174_lines true = [text "[1/5] Added dir: / at sector 33"; text "[2/5] Added file: /a at sector 34"; text "[3/5] Added file: /d at sector 35";
                        text "[4/5] Added dir: /d at sector 35"; text "[5/5] Added file: /d/B at sector 36"]
  /\ c174_lines false = c174_lines true
  /\ snd c174_failed <> Ok tt
  /\ progress_lines true as_string (snd (fst c174_failed)) = [text "[1/5] Added dir: / at sector 33"; text "[2/5] Added file: /a at sector 34"].
Proof. vm_compute. repeat split; discriminate. Qed.
