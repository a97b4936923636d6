(** Property C161: offsets stay where 64-bit integers and floating point numbers are exact. *)
From Verif Require Import M_Base M_Util M_Layout M_Read M_Img M_Dev M_Xfs M_Lin M_Cli M_Unpack M_Host M_Web M_Float.
From Verif Require Import S_Read S_Float.
From Verif Require Import P_Vm P_Witness P_Unpack P_Float.
From Coq Require Import Init.Byte Strings.String.
From Coq Require Import List.
Local Close Scope string_scope.
Local Open Scope N_scope.

(** C161: what is read of an image, whoever wrote it, ends below 2^44. *)
Theorem c161_reading :
  reads_below 17592186044416 read_volume
  /\ (forall d v, read_volume d = Ok v -> u32_region (v_root v))
  /\ (forall d fuel r es e, walk_dirent_tree fuel d r = Ok es -> In e es -> u32_region (d_region (d_dirent (e_node e))))
  /\ forall fuel r, u32_region r ->
     (forall path, reads_below 17592186044416 (fun d => walk_path fuel d r path))
     /\ reads_below 17592186044416 (fun d => walk_dirent_tree fuel d r)
     /\ reads_below 17592186044416 (fun d => file_tree fuel d r)
     /\ reads_below 17592186044416 (fun d => scan_all fuel d r)
     /\ forall x, d_region x = r -> reads_below 17592186044416 (fun d => read_data_all d x)
                  /\ forall n o, reads_below 17592186044416 (fun d => read_data_offset d x n o).
Proof. exact c161_reading_lemma. Qed.
Print Assumptions c161_reading.

(** Unpacking in the browser gives what it would give with exact offsets. *)
Theorem c161_unpack :
  forall fuel accepts file dest w, f64_unpack fuel accepts file dest w = web_unpack fuel accepts file dest w.
Proof. exact unpack_f64. Qed.
Print Assumptions c161_unpack.

(** So does packing a directory ... *)
Theorem c161_pack :
  forall fuel m quota t old, f64_pack fuel m quota t old = web_pack fuel m quota t old.
Proof. exact pack_f64. Qed.
Print Assumptions c161_pack.

(** ... and an image ... *)
Theorem c161_repack :
  forall fuel m quota file old, f64_repack fuel m quota file old = web_repack fuel m quota file old.
Proof. exact repack_f64. Qed.
Print Assumptions c161_repack.

(** ... and the compressor gets the same sectors. *)
Theorem c161_compress :
  forall fuel m t evs s evs' r, compress_layout fuel m (f64_slice_fs t) ([], evs) = ((s, evs'), r) ->
  compress_layout fuel m (web_slice_fs t) ([], evs) = ((s, evs'), r)
  /\ forall k, read_sector (f64_slice_fs t) s k = read_sector (web_slice_fs t) s k.
Proof. exact c161_compress_lemma. Qed.
Print Assumptions c161_compress.

(** Floating point numbers are not exact everywhere: 2^53 + 1 becomes 2^53, 2^53 + 3
    becomes 2^53 + 4, and a file there would be read in the wrong place. *)
Definition c161_img : list byte := image_of (record 0 0 34 3 32 [x61]) [x68; x69; x21].
Definition c161_run := f64_unpack 5 (fun _ => true) c161_img [text "d"] (bare [[]; [text "d"]]).
Example c161_example :
  as_f64 9007199254740993 = 9007199254740992 /\ as_f64 9007199254740995 = 9007199254740996 /\ as_f64 18446744073709551615 = 18446744073709551616
  /\ as_f64 17592186044415 = 17592186044415
  /\ fst (f64_write None (mkWeb [] 0) 3 [x61]) = mkWeb [x00; x00; x00; x61] 4
  /\ snd c161_run = Ok tt /\ w_fs (fst (fst c161_run)) [text "d"; text "a"] = Some (HFile [x68; x69; x21]).
Proof. vm_all. Qed.

(** The conversion of the model is the rounding of the Rust reference: to the nearest
    number with 53 significant bits, and of two such to the one with an even mantissa. *)
Theorem c161_rounding :
  forall n, significant 53 (as_f64 n)
  /\ forall x, significant 53 x -> dist n (as_f64 n) <= dist n x
     /\ (dist n (as_f64 n) = dist n x -> x = as_f64 n \/ significant 52 (as_f64 n)).
Proof. exact c161_rounding_lemma. Qed.
Print Assumptions c161_rounding.
Example c161_rounding_example :
  as_f64 36028797018963970 = 36028797018963968 /\ as_f64 36028797018963974 = 36028797018963976
  /\ as_f64 36028797018963972 = 36028797018963968 /\ as_f64 36028797018963980 = 36028797018963984.
Proof. vm_all. Qed.

(** A piece of a file copied to anywhere in a buffer is the piece that was asked for. *)
Theorem c161_slices :
  forall t p dest input output size, input < 2 ^ 52 -> len dest < 2 ^ 52 ->
  f64_copy_slice (populate t) p dest input output size = web_copy_slice (populate t) p dest input output size.
Proof. exact c161_slices_lemma. Qed.
Print Assumptions c161_slices.
Definition c161_tree := FDir [(text "a", FFile [x61; x62; x63; x64])].
Example c161_slices_example :
  f64_copy_slice (populate c161_tree) [text "a"] [x31; x32; x33] 1 1 2 = ([x31; x62; x63], Ok 3)
  /\ f64_copy_slice (populate c161_tree) [text "a"] [x31; x32; x33] 1 3 2 = ([x31; x32; x33], Ok 3)
  /\ snd (f64_copy_slice (populate c161_tree) [text "a"] [x31; x32; x33] 1 4 2) = Panic POverflow.
Proof. vm_all. Qed.
