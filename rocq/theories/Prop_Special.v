(** Property C140: packing leaves nothing out. *)
From Verif Require Import M_Base M_Util M_Layout M_Read M_Img M_Cli M_Special.
From Verif Require Import S_Read S_Img S_Cli S_Special.
From Verif Require Import P_Vm.
From Verif Require Import P_Base P_Special.
From Coq Require Import Init.Byte Strings.String.
From Coq Require Import List.
Local Close Scope string_scope.
Local Open Scope N_scope.

(** C140: if an image is created, then every directory that is seen from the root
    could be listed. *)
Theorem c140_directories :
  forall D fuel m (W : wdev D) (fs : fsys D) s s', create_xdvdfs_image fuel m W fs s = (s', Ok tt) ->
  forall p, seen fs p -> exists es, read_dir fs p = Ok es.
Proof. exact @c140_dirs. Qed.
Print Assumptions c140_directories.
(** A file that cannot be copied makes it fail. *)
Theorem c140_file :
  forall D fuel m (W : wdev D) (fs : fsys D) t p b s, source t -> presents fs t -> at_path t p (FFile b) ->
  (forall d i o n k, snd (copy_in fs p d i o n) <> Ok k) -> snd (create_xdvdfs_image fuel m W fs s) <> Ok tt.
Proof. exact @c140_files. Qed.
Print Assumptions c140_file.
(** For a directory of the host that may contain anything: success means that there
    are only files and directories that can be read, with names in UTF-8, and that
    the image contains all of them. *)
Theorem c140_host_directory :
  forall fuel m t evs img evs', raw_proper t -> create_xdvdfs_image fuel m file_wdev (raw_fs t) ([], evs) = ((img, evs'), Ok tt) ->
  exists f, listable t f /\ (source f -> plain t f /\ is_image img f).
Proof. exact c140_std_lemma. Qed.
Print Assumptions c140_host_directory.
(** Such directories are packed, if they can be represented. *)
Theorem c140_plain_directory :
  forall m t f, raw_proper t -> plain t f -> source f -> representable m f ->
  exists img evs', returns (fun fuel => create_xdvdfs_image fuel m file_wdev (raw_fs t) ([], [])) ((img, evs'), Ok tt) /\ is_image img f.
Proof. exact c140_plain_lemma. Qed.
Print Assumptions c140_plain_directory.

(** A file and a directory with one more entry. *)
Definition c140_dir (n : option str) (t : raw) : raw := RDir [(Some (text "a"), RFile [x68]); (Some (text "S"), RDir [(n, t)])].
Definition c140_run (t : raw) := snd (create_xdvdfs_image 10 Debug file_wdev (raw_fs t) ([], [])).
Example c140_example :
  c140_run (c140_dir (Some (text "b")) (RFile [])) = Ok tt
  /\ c140_run (c140_dir (Some (text "b")) ROther) = Err (FilesystemHierarchyError UNSUPPORTED)
  /\ c140_run (c140_dir None (RFile [])) = Err (FilesystemHierarchyError UNSUPPORTED)
  /\ c140_run (c140_dir (Some (text "b")) RLocked) = Err (FilesystemHierarchyError PERMISSION_DENIED)
  /\ c140_run (c140_dir (Some (text "b")) (RSealed 0)) = Err (FilesystemCopierError PERMISSION_DENIED).
Proof. vm_all. Qed.
Example c140_plain : plain (c140_dir (Some (text "b")) (RFile [])) (FDir [(text "a", FFile [x68]); (text "S", FDir [(text "b", FFile [])])]).
Proof. repeat constructor. Qed.
Example c140_proper n t : (forall cs, t <> RDir cs) -> raw_proper (c140_dir n t).
Proof.
  intros H. constructor.
  - intros i j s u u' Hi Hj. assert (E : text "a" <> text "S") by discriminate. destruct i as [|[|[|i]]], j as [|[|[|j]]]; cbn [nth_error] in *; congruence.
  - constructor; [apply rp_other; discriminate|]. constructor; [|constructor]. apply rp_dir; [|constructor; [apply rp_other; exact H|constructor]].
    intros i j s u u' Hi Hj. destruct i as [|[|i]], j as [|[|j]]; cbn [nth_error] in *; congruence.
Qed.
