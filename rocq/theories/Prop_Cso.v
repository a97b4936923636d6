(** Properties C106-C108: compress, and opening compressed images (cmd_compress.rs,
    img.rs). [cp] is any compressor. *)
From Verif Require Import M_Base M_Util M_Layout M_Read M_Img M_Dev M_Xfs M_Remap M_Cli M_Unpack M_Exiso M_Host M_Cso.
From Verif Require Import S_Read S_Unpack S_Exiso S_Fault S_Cso.
From Verif Require Import P_Vm.
From Verif Require Import P_Base P_Host P_Unpack P_Exiso P_Cso.
From Coq Require Import Init.Byte Strings.String.
From Coq Require Import List.
Local Close Scope string_scope.
Local Open Scope N_scope.

(** C106, partial: compress refuses an output that is the source or inside it, before
    anything is written, if both are absolute or both are relative and spelled without
    "." and "..". Missing: other spellings. *)
Theorem c106_output_outside_partial :
  forall cwd cp source image w, spelled_alike source image -> leads_to (place cwd source) (place cwd image) ->
  fst (cmd_compress cwd cp source (Some image) w) = w /\ snd (cmd_compress cwd cp source (Some image) w) <> Ok tt.
Proof. exact c106_lemma. Qed.
Print Assumptions c106_output_outside_partial.

Definition c106_host (dirs : list (list str)) (files : list (list str * list byte)) : world :=
  mkWorld (fold_right (fun f h => hset h (fst f) (HFile (snd f))) (w_fs (bare dirs)) files) None.
Definition c106_world : world := c106_host [[]; [text "d"]] [([text "a.iso"], [x31])].
Example c106_example :
  spelled_alike (text "d") (text "d//o.cso")
  /\ (forall cp, cmd_compress [] cp (text "d") (Some (text "d//o.cso")) c106_world = (c106_world, Err HRefused))
  /\ (forall cp, cmd_compress [] cp (text "/a.iso") (Some (text "/a.iso")) c106_world = (c106_world, Err HRefused))
  /\ (forall cp, cmd_compress [] cp (text "d") (Some (text "o.cso")) c106_world = cp (text "o.cso") [text "d"] c106_world).
Proof.
  split; [|split; [intros cp; vm_compute; reflexivity|]; split; [intros cp; vm_compute; reflexivity|intros cp; reflexivity]].
  unfold spelled_alike, plainly, no_dotdot. vm_compute. ssplit; intuition discriminate.
Qed.

(** Any other output is accepted, if both are spelled without "." and "..". *)
Theorem c106_accepts :
  forall cwd cp source image w p, Forall unix_name cwd -> canonicalize (w_fs w) cwd source = Ok p -> w_fs w p <> None -> plainly source -> plainly image ->
  ~ leads_to (place cwd source) (place cwd image) -> cmd_compress cwd cp source (Some image) w = cp image p w.
Proof. exact c106_accepted. Qed.
Print Assumptions c106_accepts.
Example c106_accepts_example :
  plainly (text "d") /\ plainly (text "/dd") /\ ~ leads_to (place [] (text "d")) (place [] (text "/dd"))
  /\ (forall cp, cmd_compress [] cp (text "d") (Some (text "/dd")) c106_world = cp (text "/dd") [text "d"] c106_world).
Proof.
  unfold plainly, no_dotdot, leads_to. split; [vm_compute; ssplit; intuition discriminate|]. split; [vm_compute; ssplit; intuition discriminate|].
  split; [intros (r & H); vm_compute in H; discriminate|intros cp; reflexivity].
Qed.

(** Finding: with "./" in front of the source, the output may be inside it; pack
    refuses the same request. *)
Theorem c106_inside_refuted :
  exists cwd source image w, place cwd source = [text "d"] /\ place cwd image = [text "d"; text "o.cso"]
    /\ (forall cp, cmd_compress cwd cp source (Some image) w = cp image [text "d"] w)
    /\ (forall pk, snd (cmd_pack cwd pk source (Some image) w) = Err HRefused).
Proof.
  exists [], (text "./d"), (text "d/o.cso"), c106_world. split; [vm_compute; reflexivity|]. split; [vm_compute; reflexivity|]. split; [intros cp; reflexivity|intros pk; vm_compute; reflexivity].
Qed.
Print Assumptions c106_inside_refuted.
(** Finding: or it may be the source itself. *)
Theorem c106_itself_refuted :
  exists cwd source image w, place cwd source = place cwd image /\ w_fs w (place cwd source) = Some (HFile [x31])
    /\ (forall cp, cmd_compress cwd cp source (Some image) w = cp image (place cwd source) w)
    /\ (forall pk, snd (cmd_pack cwd pk source (Some image) w) = Err HRefused).
Proof.
  exists [], (text "./a.iso"), (text "a.iso"), c106_world. split; [vm_compute; reflexivity|]. split; [vm_compute; reflexivity|]. split; [intros cp; reflexivity|intros pk; vm_compute; reflexivity].
Qed.
Print Assumptions c106_itself_refuted.

(** Finding: an output inside the source, by an absolute path for the source and a
    relative one for an output that exists. *)
Theorem c106_mixed_refuted :
  exists cwd source image w b, plainly source /\ plainly image /\ place cwd source = [text "d"] /\ place cwd image = [text "d"; text "o.cso"]
    /\ w_fs w (place cwd image) = Some (HFile b) /\ (forall cp, cmd_compress cwd cp source (Some image) w = cp image [text "d"] w).
Proof.
  exists [], (text "/d"), (text "d/o.cso"), (c106_host [[]; [text "d"]] [([text "d"; text "o.cso"], [x31])]), [x31]. unfold plainly, no_dotdot.
  split; [vm_compute; ssplit; intuition discriminate|]. split; [vm_compute; ssplit; intuition discriminate|]. ssplit; try (vm_compute; reflexivity).
Qed.
Print Assumptions c106_mixed_refuted.

(** C107, partial: compress panics only if the compressor does or if no output is given
    and the source has no file name. Missing: the sources in the finding. *)
Theorem c107_no_panic_partial :
  forall cwd cp source image w, (forall i p w, match snd (cp i p w) with Panic _ => False | _ => True end) ->
  image <> None \/ (exists n, ends_in source n) -> match snd (cmd_compress cwd cp source image w) with Panic _ => False | _ => True end.
Proof. exact c107_no_panic. Qed.
Print Assumptions c107_no_panic_partial.
(** Without an output, the image is named after the source, in the working directory. *)
Theorem c107_default_output :
  forall cwd cp source w p x n, canonicalize (w_fs w) cwd source = Ok p -> w_fs w p = Some x -> ends_in source n ->
  exists i, (match x with HDir => i = n ++ [46; 99; 115; 111] | HFile _ => new_ext [99; 115; 111] n i end) /\ cmd_compress cwd cp source None w = cmd_compress cwd cp source (Some i) w.
Proof. exact c107_default. Qed.
Print Assumptions c107_default_output.
Example c107_example :
  (forall cp, cmd_compress [] cp (text "d/") None c106_world = cp (text "d.cso") [text "d"] c106_world)
  /\ (forall cp, cmd_compress [] cp (text "./a.iso") None c106_world = cp (text "a.cso") [text "a.iso"] c106_world).
Proof. split; intros cp; reflexivity. Qed.
(** Every path without a file name makes it panic. *)
Theorem c107_nameless :
  forall cwd cp source w p, canonicalize (w_fs w) cwd source = Ok p -> w_fs w p <> None -> nameless source ->
  cmd_compress cwd cp source None w = (w, Panic PUnwrap).
Proof. exact c107_panics. Qed.
Print Assumptions c107_nameless.
(** Finding: "compress ." panics; so do "..", "/" and "d/..". *)
Theorem c107_no_panic_refuted :
  exists cwd source w, source = text "." /\ w_fs w cwd = Some HDir /\ forall cp, cmd_compress cwd cp source None w = (w, Panic PUnwrap).
Proof. exists [text "d"], (text "."), c106_world. split; [reflexivity|]. split; [reflexivity|]. intros cp. reflexivity. Qed.
Print Assumptions c107_no_panic_refuted.

(** C108: given the first of several parts, all parts are opened, in order, up to the
    first that is missing. *)
Theorem c108_parts :
  forall h dir x k, x <> [] -> (forall i, (1 <= i <= k)%nat -> h (dir ++ [part_name x (N.of_nat i)]) <> None) -> h (dir ++ [part_name x (N.of_nat (S k))]) = None ->
  returns (fun fuel => open_image_files fuel h dir (part_name x 1)) (match k with O => Err HNotFound | _ => Ok (Compressed (part_places dir x k)) end).
Proof. exact c108_lemma. Qed.
Print Assumptions c108_parts.
Example c108_example :
  let h := w_fs (c106_host [[]; [text "d"]] [([text "d"; text "a.b.1.cso"], []); ([text "d"; text "a.b.2.cso"], []); ([text "d"; text "a.b.4.cso"], []); ([text "d"; text "c.cso"], [])]) in
  open_image_files 10 h [text "d"] (text "a.b.1.cso") = Ok (Compressed [[text "d"; text "a.b.1.cso"]; [text "d"; text "a.b.2.cso"]])
  /\ open_image_files 10 h [text "d"] (text "a.b.4.cso") = Ok (Compressed [[text "d"; text "a.b.4.cso"]])
  /\ open_image_files 10 h [text "d"] (text "c.cso") = Ok (Compressed [[text "d"; text "c.cso"]])
  /\ open_image_files 10 h [text "d"] (text "x.1.cso") = Err HNotFound
  /\ part_name (text "a.b") 1 = text "a.b.1.cso".
Proof. cbv zeta. vm_all. Qed.

(** C99 for compress: a success means that no call has failed, if that is so for the
    compressor. *)
Theorem c99_compress : forall cwd cp source image, (forall i p, honest (cp i p)) -> honest (cmd_compress cwd cp source image).
Proof. exact honest_compress. Qed.
Print Assumptions c99_compress.
