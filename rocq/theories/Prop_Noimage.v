(** Property C139: commands that are given a file that is no image. *)
From Verif Require Import M_Base M_Util M_Layout M_Read M_Img M_Dev M_Xfs M_Cli M_Host M_Unpack M_Exiso M_Stdfs M_Extract M_Copyout M_Web.
From Verif Require Import S_Read S_Img S_Cli S_Unpack S_Exiso S_Stdfs S_Noimage.
From Verif Require Import M_Host.
From Verif Require Import P_Vm.
From Verif Require Import P_Base P_Host P_Unpack P_Exiso P_Stdfs P_Noimage.
From Coq Require Import Init.Byte Strings.String.
From Coq Require Import List.
Local Close Scope string_scope.
Local Open Scope N_scope.

(** C139, partial: repacking a device that has no volume fails without a write.
    Missing: the property for pack and extract-xiso -r, see the findings. *)
Theorem c139_repack_partial :
  forall D fuel m (W : wdev D) d cp s, (forall v, read_volume d <> Ok v) ->
  fst (repack fuel m W d cp s) = s /\ snd (repack fuel m W d cp s) <> Ok tt.
Proof. exact @c139_repack_lemma. Qed.
Print Assumptions c139_repack_partial.
(** Unpacking such a file fails and changes nothing, *)
Theorem c139_unpack_partial :
  forall fuel dup cwd s target w p file, names_file (w_fs w) cwd s p file -> no_image file ->
  fst (unpack_dup fuel dup cwd s target w) = w /\ snd (unpack_dup fuel dup cwd s target w) <> Ok tt.
Proof. exact c139_unpack_lemma. Qed.
Print Assumptions c139_unpack_partial.
(** and so do copying out of it, *)
Theorem c139_copyout_partial :
  forall fuel dup cwd s src dest w p file, names_file (w_fs w) cwd s p file -> no_image file ->
  fst (copyout_dup fuel dup cwd s src dest w) = w /\ snd (copyout_dup fuel dup cwd s src dest w) <> Ok tt.
Proof. exact c139_copyout_lemma. Qed.
Print Assumptions c139_copyout_partial.
(** extracting it and the images after it, *)
Theorem c139_extract_partial :
  forall fuel cwd directory s xs w p file, names_file (w_fs w) cwd s p file -> no_image file ->
  fst (exiso_extract fuel cwd directory (s :: xs) w) = w /\ snd (exiso_extract fuel cwd directory (s :: xs) w) <> Ok tt.
Proof. exact c139_extract_lemma. Qed.
Print Assumptions c139_extract_partial.
(** and repacking it in the browser. *)
Theorem c139_web_partial :
  forall fuel m quota file old, no_image file ->
  fst (fst (web_repack fuel m quota file old)) = old /\ snd (web_repack fuel m quota file old) <> Ok tt.
Proof. exact c139_web_lemma. Qed.
Print Assumptions c139_web_partial.
(** Packing from it fails, and at most one file differs afterwards: the output,
    which is then empty. *)
Theorem c139_pack_partial :
  forall ls fuel m cwd source image w p file, names_file (w_fs w) cwd source p file -> no_image file ->
  exists o, only_empties o (w_fs w) (w_fs (fst (cmd_pack cwd (std_packer ls fuel m) source image w)))
   /\ snd (cmd_pack cwd (std_packer ls fuel m) source image w) <> Ok tt /\ o <> p
   /\ (forall i, image = Some i -> no_dotdot i -> w_fs (fst (cmd_pack cwd (std_packer ls fuel m) source image w)) = w_fs w \/ o = place cwd i).
Proof. exact c139_pack_lemma. Qed.
Print Assumptions c139_pack_partial.

(** A text file, and a file from an earlier run. *)
Definition c139_world : world := planted (text "d") (FDir [(text "a.txt", FFile [x68; x69]); (text "o.iso", FFile [x31; x32])]).
Example c139_text : names_file (w_fs c139_world) [] (text "d/a.txt") [text "d"; text "a.txt"] [x68; x69] /\ no_image [x68; x69].
Proof.
  split; [split; vm_compute; reflexivity|]. intros d v H. exfalso. assert (E : forall d, open_image [x68; x69] <> Ok d).
  { intros d'. unfold open_image. assert (E : exists e, offset_wrapper_new (file_dev [x68; x69]) = Err e) by (eexists; vm_compute; reflexivity). destruct E as (e & E). rewrite E. discriminate. }
  destruct (E _ H).
Qed.
Example c139_unpacked : exists e, snd (unpack_dup 10 (fun _ => false) [] (text "d/a.txt") (Some (text "x")) c139_world) = Err e.
Proof. eexists. vm_compute. reflexivity. Qed.

(** Finding: pack empties an output that exists before it looks at the source. *)
Theorem c139_pack_refuted :
  exists cwd pk source image w p file, names_file (w_fs w) cwd source p file /\ no_image file /\ pk = std_packer (fun _ => []) 10 Debug
  /\ image = text "d/o.iso" /\ w_fs w [text "d"; text "o.iso"] = Some (HFile [x31; x32])
  /\ let r := cmd_pack cwd pk source (Some image) w in snd r = Err HPack /\ w_fs (fst r) [text "d"; text "o.iso"] = Some (HFile []).
Proof.
  exists [], (std_packer (fun _ => []) 10 Debug), (text "d/a.txt"), (text "d/o.iso"), c139_world, [text "d"; text "a.txt"], [x68; x69].
  split; [exact (proj1 c139_text)|]. split; [exact (proj2 c139_text)|]. cbv zeta. split; [reflexivity|]. vm_all.
Qed.
Print Assumptions c139_pack_refuted.
(** Finding: extract-xiso -r renames a file that is no image and leaves an empty
    file in its place. *)
Theorem c139_rewrite_refuted :
  exists cwd pk x w p file, names_file (w_fs w) cwd x p file /\ no_image file /\ pk = std_packer (fun _ => []) 10 Debug
  /\ p = [text "d"; text "a.txt"] /\ file = [x68; x69]
  /\ let r := exiso_repack cwd pk None true [x] w in
     snd r = Err HPack /\ w_fs (fst r) [text "d"; text "a.txt"] = Some (HFile []) /\ w_fs (fst r) [text "d"; text "a.old"] = Some (HFile [x68; x69]).
Proof.
  exists [], (std_packer (fun _ => []) 10 Debug), (text "d/a.txt"), c139_world, [text "d"; text "a.txt"], [x68; x69].
  split; [exact (proj1 c139_text)|]. split; [exact (proj2 c139_text)|]. cbv zeta. split; [reflexivity|]. vm_all.
Qed.
Print Assumptions c139_rewrite_refuted.
