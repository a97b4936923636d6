(** Property C152: packing or building again gives the same image (cmd_pack.rs,
    cmd_build_image.rs, write/img.rs, write/fs/stdfs.rs, write/fs/remap.rs). *)
From Verif Require Import M_Base M_Util M_Layout M_Read M_Img M_Dev M_Trie M_Xfs M_Remap M_Cli M_Unpack M_Exiso M_Stdfs M_Host M_Build.
From Verif Require Import S_Read S_Img S_Dev S_Unpack S_Exiso S_Stdfs S_Build.
From Verif Require Import P_Base P_Src P_Witness P_Stdfs P_Twice.
From Verif Require Import M_Host M_Build.
From Coq Require Import Init.Byte Strings.String.
From Coq Require Import List.
Local Close Scope string_scope.
Local Open Scope N_scope.

(** C152: pack with an output outside of the source ends a second time as it did the
    first time, and leaves the host as the first time did. *)
Theorem c152_pack :
  forall fuel m ls cwd src image i w p w1 r, Forall unix_name cwd -> canonicalize (w_fs w) cwd src = Ok p ->
  output_for p image i -> (w_fs w p = Some HDir \/ image = Some i /\ w_fs w p <> None) -> ready_for_file cwd i w -> ~ leads_to p (place cwd i) ->
  cmd_pack cwd (std_packer ls fuel m) src image w = (w1, r) ->
  exists w2, cmd_pack cwd (std_packer ls fuel m) src image w1 = (w2, r) /\ forall q, w_fs w2 q = w_fs w1 q.
Proof. exact c152_pack_lemma. Qed.
Print Assumptions c152_pack.

(** ... and so does build-image, with rules given as options, *)
Theorem c152_options_partial :
  forall fuel m wax ls toml cwd rs out s i p w w1 r,
  canonicalize (w_fs w) cwd s = Ok p -> w_fs w p = Some HDir -> ready_for_file cwd i w -> ~ leads_to p (place cwd i) ->
  build_image toml (std_overlay fuel m wax ls) (std_overlay_packer fuel m ls) cwd (by_options rs out false (Some s) (Some i)) w = (w1, r) ->
  exists w2, build_image toml (std_overlay fuel m wax ls) (std_overlay_packer fuel m ls) cwd (by_options rs out false (Some s) (Some i)) w1 = (w2, r)
    /\ forall q, w_fs w2 q = w_fs w1 q.
Proof. exact c152_options. Qed.
Print Assumptions c152_options_partial.

(** ... or in the spec of the source directory. Missing: an image inside of the source
    directory, refuted below, and an image path from the spec. *)
Theorem c152_spec_partial :
  forall fuel m wax ls toml cwd s i p b w w1 r,
  canonicalize (w_fs w) cwd s = Ok p -> w_fs w p = Some HDir -> w_fs w (p ++ [text "xdvdfs.toml"]) = Some (HFile b) -> ready_for_file cwd i w -> ~ leads_to p (place cwd i) ->
  build_image toml (std_overlay fuel m wax ls) (std_overlay_packer fuel m ls) cwd (by_spec false (Some s) (Some i)) w = (w1, r) ->
  exists w2, build_image toml (std_overlay fuel m wax ls) (std_overlay_packer fuel m ls) cwd (by_spec false (Some s) (Some i)) w1 = (w2, r)
    /\ forall q, w_fs w2 q = w_fs w1 q.
Proof. exact c152_spec. Qed.
Print Assumptions c152_spec_partial.

(** The directory d with the file a, packed to d.iso twice, and built to out.iso. *)
Definition c152_pk := cmd_pack [] (std_packer (planted_ls tw_tree) 10 Debug) (text "d") None.
Definition c152_bd := build_image (fun _ => None) (std_overlay 10 Debug tw_wax (planted_ls tw_tree)) (std_overlay_packer 10 Debug (planted_ls tw_tree)) []
  (by_options [text "**:/{0}"] None false (Some (text "d")) (Some (text "out.iso"))).
Definition c152_get (w : world) (n : str) : list byte := match w_fs w [n] with Some (HFile b) => b | _ => [] end.
Example c152_example :
  let w1 := fst (c152_pk tw_world) in let w2 := fst (c152_pk w1) in
  snd (c152_pk tw_world) = Ok tt /\ snd (c152_pk w1) = Ok tt /\ tw_names (c152_get w1 (text "d.iso")) = Ok [text "a"]
  /\ bytes_eqb (c152_get w1 (text "d.iso")) (c152_get w2 (text "d.iso")) = true
  /\ (let v1 := fst (c152_bd tw_world) in let v2 := fst (c152_bd v1) in
      snd (c152_bd tw_world) = Ok None /\ snd (c152_bd v1) = Ok None /\ tw_names (c152_get v1 (text "out.iso")) = Ok [text "a"]
      /\ bytes_eqb (c152_get v1 (text "out.iso")) (c152_get v2 (text "out.iso")) = true).
Proof. vm_compute. ssplit; reflexivity. Qed.

(** Finding: build-image accepts an image inside of the source directory, which pack
    refuses. With the rule "**:/{0}" the second run then packs the image of the first
    run into the new image, as the file /i. *)
Theorem c152_inside_refuted : exists wax rs build ls ls' t t' w w1 w2 img img',
  (forall ls w, build ls w = build_image (fun _ => None) (std_overlay 10 Debug wax ls) (std_overlay_packer 10 Debug ls) []
                               (by_options rs None false (Some (text "d")) (Some (text "d/i"))) w)
  /\ rs = [text "**:/{0}"] /\ (forall pat s, exists c, wax pat = Some c /\ exists f, c s = Some f /\ f 0 = Some s)
  /\ hosts (w_fs w) ls [text "d"] t /\ build ls w = (w1, Ok None) /\ w_fs w1 [text "d"; text "i"] = Some (HFile img)
  /\ hosts (w_fs w1) ls' [text "d"] t' /\ build ls' w1 = (w2, Ok None) /\ w_fs w2 [text "d"; text "i"] = Some (HFile img')
  /\ tw_names img = Ok [text "a"] /\ tw_names img' = Ok [text "i"; text "a"].
Proof. exact c152_inside. Qed.
Print Assumptions c152_inside_refuted.
