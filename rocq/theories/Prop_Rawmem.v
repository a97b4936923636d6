(** Property C176: compressing a directory of the host leaves nothing out. *)
From Verif Require Import M_Base M_Util M_Layout M_Read M_Img M_Dev M_Lin M_Cli M_Special M_Rawmem.
From Verif Require Import S_Read S_Img S_Lin S_Special.
From Verif Require Import P_Vm P_Rawmem.
From Coq Require Import Init.Byte Strings.String.
From Coq Require Import List.
Local Close Scope string_scope.
Local Open Scope N_scope.

(** C176: if the layout is made, the directory contains only files and directories
    with names in UTF-8, and all directories could be listed. *)
Theorem c176_listed :
  forall fuel m t s s', raw_proper t -> compress_layout fuel m (raw_mem_fs t) s = (s', Ok tt) -> exists f, listable t f.
Proof. exact c176_lists_lemma. Qed.
Print Assumptions c176_listed.
(** Then each sector is the one of the image or reports a file that cannot be opened,
    and each such file that is not empty is reported. *)
Theorem c176_sectors :
  forall m t f img evs, raw_proper t -> listable t f -> source f -> packs m f img ->
  exists s evs', returns (fun fuel => compress_layout fuel m (raw_mem_fs t) ([], evs)) ((s, evs'), Ok tt) /\ lin_len s = len img
  /\ (forall k, (exists b, read_sector (raw_mem_fs t) s k = Ok b /\ is_sector img k b)
                \/ (read_sector (raw_mem_fs t) s k = Err PERMISSION_DENIED /\ exists p n, lookup_raw p t = Some (RSealed n) /\ n <> 0))
  /\ (forall p b, at_path f p (FFile b) -> b <> [] -> lookup_raw p t = Some (RSealed (len b)) ->
        exists k, 2048 * k < len img /\ read_sector (raw_mem_fs t) s k = Err PERMISSION_DENIED).
Proof. exact c176_sectors_lemma. Qed.
Print Assumptions c176_sectors.
(** If all sectors of the image could be read, all files were, except for empty ones. *)
Theorem c176_files_partial :
  forall m t f img evs, raw_proper t -> listable t f -> source f -> packs m f img ->
  exists s evs', returns (fun fuel => compress_layout fuel m (raw_mem_fs t) ([], evs)) ((s, evs'), Ok tt)
  /\ ((forall k, 2048 * k < len img -> exists b, read_sector (raw_mem_fs t) s k = Ok b) ->
      forall p b, at_path f p (FFile b) -> b = [] \/ lookup_raw p t = Some (RFile b)).
Proof. exact c176_all_lemma. Qed.
Print Assumptions c176_files_partial.

(** A file and another entry. *)
Definition c176_dir (n : option str) (t : raw) : raw := RDir [(Some (text "a"), RFile [x68]); (n, t)].
Definition c176_layout (t : raw) := compress_layout 10 Debug (raw_mem_fs t) ([], []).
(** The bytes of a sector are shortened for the comparison. *)
Definition c176_sector (t : raw) (k : N) := let* b := read_sector (raw_mem_fs t) (fst (fst (c176_layout t))) k in Ok (slice b 0 2).
(** The finding: an empty file that cannot be opened is packed by compress, while
    pack fails. *)
Theorem c176_refuses_as_pack_refuted :
  exists t, snd (c176_layout t) = Ok tt
  /\ lin_len (fst (fst (c176_layout t))) = 131072
  /\ forallb (fun k => match read_sector (raw_mem_fs t) (fst (fst (c176_layout t))) (N.of_nat k) with Ok _ => true | _ => false end) (seq 0 64) = true
  /\ snd (create_xdvdfs_image 10 Debug file_wdev (raw_fs t) ([], [])) = Err (FilesystemCopierError PERMISSION_DENIED).
Proof. exists (c176_dir (Some (text "b")) (RSealed 0)). vm_all. Qed.
Print Assumptions c176_refuses_as_pack_refuted.

Example c176_example :
  snd (c176_layout (c176_dir (Some (text "b")) (RSealed 3))) = Ok tt
  /\ c176_sector (c176_dir (Some (text "b")) (RSealed 3)) 34 = Ok [x68; x00]
  /\ c176_sector (c176_dir (Some (text "b")) (RSealed 3)) 35 = Err PERMISSION_DENIED
  /\ c176_sector (c176_dir (Some (text "b")) (RFile [x69])) 35 = Ok [x69; x00]
  /\ snd (c176_layout (c176_dir (Some (text "b")) ROther)) = Err (FilesystemHierarchyError UNSUPPORTED)
  /\ snd (c176_layout (c176_dir None (RFile []))) = Err (FilesystemHierarchyError UNSUPPORTED)
  /\ snd (c176_layout (c176_dir (Some (text "b")) RLocked)) = Err (FilesystemHierarchyError PERMISSION_DENIED).
Proof. vm_all. Qed.
Example c176_proper t : (forall cs, t <> RDir cs) -> raw_proper (c176_dir (Some (text "b")) t).
Proof.
  intros H. apply rp_dir; [|constructor; [apply rp_other; discriminate|constructor; [apply rp_other; exact H|constructor]]].
  assert (E : text "a" <> text "b") by discriminate.
  intros i j s u u' Hi Hj. destruct i as [|[|[|i]]], j as [|[|[|j]]]; cbn [nth_error] in *; congruence.
Qed.
Example c176_listable : listable (c176_dir (Some (text "b")) (RSealed 3)) (FDir [(text "a", FFile [x68]); (text "b", FFile [x69; x6a; x6b])]).
Proof. apply ls_dir. repeat constructor. exact (ls_sealed [x69; x6a; x6b]). Qed.
