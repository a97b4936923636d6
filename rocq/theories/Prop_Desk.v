(** Properties C85-C88: the commands of the desktop application (xdvdfs-desktop). *)
From Verif Require Import M_Base M_Util M_Layout M_Read M_Img M_Dev M_Xfs M_Remap M_Cli M_Unpack M_Exiso M_Stdfs M_Host M_Desk.
From Verif Require Import S_Avl S_Codec S_Table S_Read S_Img S_Dev S_Xfs S_Check S_Cli S_Unpack S_Exiso S_Stdfs S_Desk.
From Verif Require Import P_Vm.
From Verif Require Import P_Base P_Witness P_More P_Src P_Repack P_Host P_Unpack P_Exiso P_Stdfs P_Desk.
From Coq Require Import Init.Byte Strings.String.
From Coq Require Import List.
Local Close Scope string_scope.
Local Open Scope N_scope.

(** C85, partial: no command ever answers with a message about an error. Missing: the
    property itself, see the findings. *)
Theorem c85_never_reports_partial :
  forall r, (exists cwd pk s d w, r = snd (desk_pack cwd pk s d w)) \/ (exists fuel cwd s d w, r = snd (desk_unpack fuel cwd s d w))
    \/ (exists cwd cp s w, r = snd (desk_compress cwd cp s w)) -> ~ reports_error r.
Proof. exact c85_lemma. Qed.
Print Assumptions c85_never_reports_partial.

(** A message that is answered would be shown as it is. *)
Theorem c85_page_partial :
  forall r, match r with Some e => page_result r = inr e | None => page_result r = inl tt end.
Proof. exact c85_page. Qed.
Print Assumptions c85_page_partial.

(** d/a ("hi"), d/S/c ("x"). *)
Definition c85_tree : ftree := FDir [(text "a", FFile [x68; x69]); (text "S", FDir [(text "c", FFile [x78])])].
Definition c85_world : world := planted (text "d") c85_tree.

(** Finding: packing something that does not exist is reported as success; the
    output is replaced by an empty file. *)
Theorem c85_pack_refuted :
  exists cwd pk source dest w, let r := desk_pack cwd pk source dest w in
    canonicalize (w_fs w) cwd source = Err HNotFound /\ reports_success (snd r)
    /\ dest = text "d/a" /\ w_fs w [text "d"; text "a"] = Some (HFile [x68; x69]) /\ w_fs (fst r) [text "d"; text "a"] = Some (HFile []).
Proof.
  exists [], (std_packer (planted_ls c85_tree) 10 Debug), (text "x"), (text "d/a"), c85_world. cbv zeta. ssplit; [vm_compute; reflexivity|exists None; vm_all|reflexivity|vm_compute; reflexivity|vm_compute; reflexivity].
Qed.
Print Assumptions c85_pack_refuted.
(** Finding: so is packing a directory that cannot be represented. *)
Theorem c85_unrepresentable_refuted :
  exists t cwd source dest, let w := planted (text "d") t in let r := desk_pack cwd (std_packer (planted_ls t) 10 Debug) source dest w in
    snd (cmd_pack cwd (std_packer (planted_ls t) 10 Debug) source (Some dest) w) = Err HPack /\ reports_success (snd r).
Proof.
  exists (FDir [(text "a", FFile []); (text "A", FFile [])]), [], (text "d"), (text "o"). cbv zeta. split; [vm_compute; reflexivity|exists None; vm_all].
Qed.
Print Assumptions c85_unrepresentable_refuted.
(** Finding: so is unpacking something that is no image. *)
Theorem c85_unpack_refuted :
  exists fuel cwd source dest w, let r := desk_unpack fuel cwd source dest w in
    w_fs w [text "d"; text "a"] = Some (HFile [x68; x69]) /\ source = text "d/a" /\ reports_success (snd r) /\ fst r = w.
Proof.
  exists 10%nat, [], (text "d/a"), (text "o"), c85_world. cbv zeta. ssplit; [vm_compute; reflexivity|reflexivity|exists None; vm_all|reflexivity].
Qed.
Print Assumptions c85_unpack_refuted.

(** C86: packing a directory that is representable leaves an image of it in the
    output, and nothing else changes. *)
Theorem c86_pack_directory :
  forall m ls cwd src i w p t, canonicalize (w_fs w) cwd src = Ok p -> hosts (w_fs w) ls p t -> source t -> representable m t ->
  ready_for_file cwd i w -> ~ leads_to p (place cwd i) ->
  exists w' img, returns (fun fuel => desk_pack cwd (std_packer ls fuel m) src i w) (w', Ok None)
   /\ w_fs w' (place cwd i) = Some (HFile img) /\ (forall q, q <> place cwd i -> w_fs w' q = w_fs w q) /\ packs m t img.
Proof. exact c86_lemma. Qed.
Print Assumptions c86_pack_directory.

Definition c86_run := desk_pack [] (std_packer (planted_ls c85_tree) 10 Debug) (text "d") (text "o") c85_world.
Definition c86_bytes (x : option hnode) : list byte := match x with Some (HFile b) => b | _ => [] end.
Definition c86_img : list byte := c86_bytes (w_fs (fst c86_run) [text "o"]).
Example c86_example :
  ready_for_file [] (text "o") c85_world /\ snd c86_run = Ok None /\ len c86_img = 131072
  /\ (let* v := read_volume (file_dev c86_img) in let* e := walk_path 10 (file_dev c86_img) (v_root v) (text "/s/C") in
      read_data_all (file_dev c86_img) (d_dirent (e_node e))) = Ok [x78].
Proof.
  split; [apply planted_ready_file; [apply (source_b_ok c85_tree); vm_compute; reflexivity|reflexivity|apply unix_name_b_ok; reflexivity|discriminate]|].
  split; [vm_compute; reflexivity|]. vm_all.
Qed.

(** C87, partial: an output outside of the source leaves it as it is, and only the
    output changes. Missing: the output must not be the source or inside it. *)
Theorem c87_source_kept_partial :
  forall cwd pk s i w w' r p, no_dotdot i -> canonicalize (w_fs w) cwd s = Ok p -> ~ leads_to p (place cwd i) -> desk_pack cwd pk s i w = (w', r) -> untouched p (w_fs w) (w_fs w').
Proof. exact c87_lemma. Qed.
Print Assumptions c87_source_kept_partial.
Theorem c87_only_the_output :
  forall cwd pk s i w w' r, no_dotdot i -> desk_pack cwd pk s i w = (w', r) -> changes_only (place cwd i) (w_fs w) (w_fs w').
Proof. exact desk_pack_changes. Qed.
Print Assumptions c87_only_the_output.

(** Finding: packing an image onto itself destroys it, and is reported as success;
    the command line tool refuses. *)
Theorem c87_source_kept_refuted :
  exists cwd source dest w, let pk := std_packer (planted_ls c85_tree) 10 Debug in
    w_fs w [text "d"; text "a"] = Some (HFile [x68; x69]) /\ source = text "d/a" /\ dest = text "d/a"
    /\ reports_success (snd (desk_pack cwd pk source dest w)) /\ w_fs (fst (desk_pack cwd pk source dest w)) [text "d"; text "a"] = Some (HFile [])
    /\ snd (cmd_pack cwd pk source (Some dest) w) = Err HRefused.
Proof.
  exists [], (text "d/a"), (text "d/a"), c85_world. cbv zeta. ssplit; [vm_compute; reflexivity|reflexivity|reflexivity|exists None; vm_all|vm_compute; reflexivity|vm_compute; reflexivity].
Qed.
Print Assumptions c87_source_kept_refuted.

(** C88: unpacking does to the host what the command line tool does (C47-C49), ... *)
Theorem c88_like_the_command :
  forall fuel cwd s d w p file, canonicalize (w_fs w) cwd s = Ok p -> w_fs w p = Some (HFile file) ->
  fst (desk_unpack fuel cwd s d w) = fst (cmd_unpack fuel cwd s file (Some d) w).
Proof. exact c88_same. Qed.
Print Assumptions c88_like_the_command.
(** ... in particular it restores the tree in the image. *)
Theorem c88_unpack :
  forall cwd s d w p file t, canonicalize (w_fs w) cwd s = Ok p -> w_fs w p = Some (HFile file) -> is_image file t -> unix_tree t -> ready_for cwd d t w ->
  exists w', returns (fun fuel => desk_unpack fuel cwd s d w) (w', Ok None) /\ restored (place cwd d) t (w_fs w) (w_fs w').
Proof. exact c88_lemma. Qed.
Print Assumptions c88_unpack.

Definition c88_run := desk_unpack 20 [] (text "o") (text "e") (fst c86_run).
Example c88_example :
  snd c88_run = Ok None
  /\ map (w_fs (fst c88_run)) [[text "e"]; [text "e"; text "a"]; [text "e"; text "S"; text "c"]; [text "e"; text "c"]] = [Some HDir; Some (HFile [x68; x69]); Some (HFile [x78]); None].
Proof. vm_all. Qed.
