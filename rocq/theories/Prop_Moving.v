(** Property C151: a source that changes while it is packed. *)
From Verif Require Import M_Base M_Util M_Layout M_Read M_Img M_Dev M_Stdfs M_Host M_Moving.
From Verif Require Import S_Avl S_Codec S_Read S_Img S_Moving.
From Verif Require Import P_Base P_Moving P_Vm.
From Coq Require Import Init.Byte.
Local Open Scope N_scope.

(** C151: all that a successful run promises. [t] is what the listings showed; the image
    is the beginning of the image of [snapshot], up to missing zeros at its end. *)
Theorem c151_partial :
  forall before later ls root m t fuel evs img evs', source t -> presents (moving_fs before later ls root) t ->
  create_xdvdfs_image fuel m file_wdev (moving_fs before later ls root) ([], evs) = ((img, evs'), Ok tt) ->
  (forall p b, at_path t p (FFile b) -> contents later root p <> None)
  /\ exists full n, packs m (snapshot (contents later root) [] t) full /\ full = img ++ fill n x00.
Proof. exact c151_prefix_host. Qed.
Print Assumptions c151_partial.
(** Files may grow: the image holds as much of them as was listed. *)
Theorem c151_growing :
  forall before later ls root m t fuel evs img evs', source t -> presents (moving_fs before later ls root) t ->
  (forall p b, at_path t p (FFile b) -> kept (contents later root) p (len b)) ->
  create_xdvdfs_image fuel m file_wdev (moving_fs before later ls root) ([], evs) = ((img, evs'), Ok tt) ->
  packs m (snapshot (contents later root) [] t) img.
Proof. exact c151_whole_host. Qed.
Print Assumptions c151_growing.
(** Whatever happens to other files: all that was listed is found, and a file that did
    not become shorter can be read. *)
Theorem c151_others :
  forall before later ls root m t fuel evs img evs', source t -> presents (moving_fs before later ls root) t ->
  create_xdvdfs_image fuel m file_wdev (moving_fs before later ls root) ([], evs) = ((img, evs'), Ok tt) ->
  exists v, read_volume (file_dev img) = Ok v /\
  forall p t' path, at_path t p t' -> p <> [] -> path_of p path ->
  exists e, returns (fun fuel => walk_path fuel (file_dev img) (v_root v) path) (Ok e) /\ name_str e = last p [] /\ is_dir e = is_fdir t'
   /\ forall b, t' = FFile b -> r_size (region_of e) = len b /\ exists x, contents later root p = Some x
      /\ (read_data_all (file_dev img) (d_dirent (e_node e)) = Ok (fitted (len b) x) \/ (exists y, read_data_all (file_dev img) (d_dirent (e_node e)) = Err y))
      /\ (len b <= len x -> read_data_all (file_dev img) (d_dirent (e_node e)) = Ok (firstn (N.to_nat (len b)) x)).
Proof. exact c151_found_host. Qed.
Print Assumptions c151_others.
(** The contents of the files have no influence on whether the run succeeds. *)
Theorem c151_result :
  forall before later ls root m t, source t -> presents (moving_fs before later ls root) t ->
  (forall p b, at_path t p (FFile b) -> contents later root p <> None) ->
  exists n r, forall fuel evs, (n <= fuel)%nat ->
   snd (create_xdvdfs_image fuel m file_wdev (moving_fs before later ls root) ([], evs)) = r
   /\ snd (create_xdvdfs_image fuel m file_wdev (std_fs (snapshot (contents later root) [] t)) ([], evs)) = r.
Proof. exact c151_result_host. Qed.
Print Assumptions c151_result.

(** A grows from 1 to 3 bytes, and B shrinks from 3 to 1. *)
Definition c151_run := two_run [x61] [x62; x62; x62] [x63; x63; x63] [x64].
Example c151_example :
  snd c151_run = Ok tt /\ two_read (fst (fst c151_run)) 65 = Ok (1, [x63]) /\ two_read (fst (fst c151_run)) 66 = Ok (3, [x64; x00; x00]).
Proof. vm_all. Qed.

(** The finding: packing succeeds, and a file of the image lies behind its end. B had
    70000 bytes when it was listed, and none when it was copied. *)
Theorem c151_refuted : exists a b a' b' img evs,
  two_run a b a' b' = ((img, evs), Ok tt) /\ (exists n, two_read img 65 = Ok (n, a)) /\ exists e, two_read img 66 = Err (IOError e).
Proof. apply (two_refutes [x61] (fill 70000 x62) [x61] [] 1 UnexpectedEof); vm_compute; reflexivity. Qed.
Print Assumptions c151_refuted.
