(** Property C167: reading compressed images (img.rs). [inflates z img]: the reader of the
    crate ciso gives the bytes of the image that was compressed; [on_compressed]: a command
    on the compressed image; [command_of]: the same command on the image.  *)
From Verif Require Import M_Base M_Util M_Layout M_Read M_Img M_Check M_Remap M_Cli M_Zip.
From Verif Require Import S_Read S_Img S_Check S_Cli S_Flaky S_Zip.
From Verif Require Import P_Vm.
From Verif Require Import P_Base P_Witness P_More P_Src P_Repack P_Cli P_Flaky P_Extra P_Zip.
From Coq Require Import Init.Byte Permutation Strings.String.
From Coq Require Import List.
Local Close Scope string_scope.
Local Open Scope N_scope.

(** The commands are those of the other properties. *)
Theorem c167_commands : forall m H fuel c file, on_plain m H fuel c file = command_of m H fuel c file.
Proof. exact plain_command. Qed.
Print Assumptions c167_commands.

(** With the partition at the beginning: the command prints the same, unless the plain
    image leads to an I/O error. *)
Theorem c167_same_partial : forall m H fuel c z img, inflates z img -> patient z -> offset_wrapper_new (file_dev img) = Ok 0 ->
  (forall e, snd (command_of m H fuel c img) <> Err (IOError e)) -> on_compressed m H fuel c z = command_of m H fuel c img.
Proof. exact zip_same. Qed.
Print Assumptions c167_same_partial.
(** In any case: nothing wrong is printed, it is the same or breaks off with an I/O error. *)
Theorem c167_right : forall m H fuel c z img, inflates z img -> offset_wrapper_new (file_dev img) = Ok 0 ->
  same_or_cut (on_compressed m H fuel c z) (command_of m H fuel c img).
Proof. exact zip_right. Qed.
Print Assumptions c167_right.
(** In particular, tree prints the tree of a packed image. *)
Theorem c167_packed : forall m b H t img z name, source t -> packs m t img -> inflates z img -> patient z ->
  exists lines, Permutation lines (map row_line (rows [] t))
    /\ returns (fun fuel => on_compressed b H fuel (Tree name) z)
         (lines ++ [decimal (count_files t) ++ text " files, " ++ decimal (count_bytes t) ++ text " bytes in " ++ name], Ok tt).
Proof. exact zip_packed. Qed.
Print Assumptions c167_packed.
(** With the partition elsewhere, no command accepts the compressed image. *)
Theorem c167_elsewhere : forall m H fuel c z img, inflates z img -> offset_wrapper_new (file_dev img) <> Ok 0 ->
  on_compressed m H fuel c z = ([], Err InvalidVolume).
Proof. exact zip_elsewhere. Qed.
Print Assumptions c167_elsewhere.

(** a ("hi"), S/c ("x"); the reader fails with code 7 behind the end. *)
Definition c167_tree : ftree := FDir [(text "a", FFile [x68; x69]); (text "S", FDir [(text "c", FFile [x78])])].
Definition c167_img : list byte := fst (fst (create_xdvdfs_image 10 Debug file_wdev (std_fs c167_tree) ([], []))).
Definition c167_reader (o n : N) : res ioerr (list byte) := if o + n <=? len c167_img then Ok (slice c167_img o n) else if n =? 0 then Ok [] else Err (IoOther 7).
Example c167_example :
  source c167_tree /\ packs Debug c167_tree c167_img /\ inflates c167_reader c167_img /\ patient c167_reader
  /\ on_compressed Debug (firstn 1) 10 (Ls (text "/S") true) c167_reader = ([text "c"], Ok tt)
  /\ on_compressed Debug (firstn 1) 10 (Tree (text "i")) c167_reader
     = ([text "/a (2 bytes)"; text "/S/ (0 bytes)"; text "/S/c (1 bytes)"; text "2 files, 3 bytes in i"], Ok tt)
  /\ on_compressed Debug (firstn 1) 10 (Md5 (Some (text "/a"))) c167_reader = ([text "68  /a"], Ok tt)
  /\ offset_wrapper_new (file_dev c167_img) = Ok 0.
Proof.
  assert (S : source c167_tree) by (apply source_b_ok; vm_compute; reflexivity). split; [exact S|].
  split; [apply (std_packs Debug c167_tree 10 []); [exact S|vm_compute; reflexivity]|].
  split; [split; intros o n L; unfold c167_reader|].
  - rewrite (proj2 (N.leb_le _ _) L). reflexivity.
  - rewrite (proj2 (N.leb_gt _ _) L). destruct (N.eqb_spec n 0) as [->|]; [left; split; reflexivity|right; eexists; reflexivity].
  - split; [intros o; unfold c167_reader; destruct (_ <=? _); reflexivity|]. vm_all.
Qed.

(** Finding: tree lists an image whose partition is not at the beginning, but not the same
    image compressed: only plain files are searched for the partition. *)
Theorem c167_same_refuted : exists m H fuel c z img out, inflates z img /\ patient z /\ command_of m H fuel c img = (out, Ok tt) /\ out <> []
  /\ on_compressed m H fuel c z = ([], Err InvalidVolume).
Proof.
  destruct (zip_lost Debug (firstn 1) 10 (Ls (text "/S") true) c167_img [text "c"]) as (file & A & B); [vm_compute; reflexivity..|].
  exists Debug, (firstn 1), 10%nat, (Ls (text "/S") true), (file_dev file), file, [text "c"].
  split; [exact (proj1 (file_inflates file))|]. split; [exact (proj2 (file_inflates file))|]. split; [exact A|]. split; [discriminate|exact B].
Qed.
Print Assumptions c167_same_refuted.
