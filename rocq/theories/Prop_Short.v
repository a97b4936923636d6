(** Property C172: reads that give fewer bytes than were asked for. *)
From Verif Require Import M_Base M_Util M_Layout M_Read M_Img M_Dev M_Lin M_Cli M_Short.
From Verif Require Import S_Read S_Img S_Lin S_Short.
From Verif Require Import P_Vm P_Short.
From Coq Require Import Init.Byte Strings.String.
From Coq Require Import List.
Local Close Scope string_scope.
Local Open Scope N_scope.

(** C172: images are read as if every call gave all bytes. *)
Theorem c172_read :
  forall S file, (forall o n, never_fails (S o n)) -> forall o n, short_dev S file o n = file_dev file o n.
Proof. exact c172_read_lemma. Qed.
Print Assumptions c172_read.
(** If calls fail, a read does the same or reports one of the failures. *)
Theorem c172_read_failure :
  forall S file o n, short_dev S file o n = file_dev file o n \/ exists k e, S o n k = Fails e /\ short_dev S file o n = Err e.
Proof. exact c172_read_failure_lemma. Qed.
Print Assumptions c172_read_failure.

(** Packing a directory gives the same image and messages. *)
Theorem c172_pack :
  forall S t fuel m b k evs s' evs' r, never_fails S ->
  create_xdvdfs_image fuel m short_wdev (short_fs S t) ((b, k), evs) = ((s', evs'), r) ->
  create_xdvdfs_image fuel m file_wdev (std_fs t) (b, evs) = ((fst s', evs'), r).
Proof. exact c172_pack_lemma. Qed.
Print Assumptions c172_pack.
(** If calls fail, copying a file does the same or reports one of the failures. *)
Theorem c172_failure :
  forall S t p s input output size s' r, short_copy_file S t p s input output size = (s', r) ->
  (fst s', r) = std_copy_file t p (fst s) input output size \/ exists k e, S k = Fails e /\ r = Err e.
Proof. exact c172_failure_lemma. Qed.
Print Assumptions c172_failure.

(** Compressing gets the sectors of the image, if every call gives a whole sector (or the
    rest of the file); a failure is reported. *)
Theorem c172_compress_partial :
  forall m t img evs, source t -> packs m t img ->
  exists s evs', returns (fun fuel => compress_layout fuel m (std_mem_fs t) ([], evs)) ((s, evs'), Ok tt) /\ lin_len s = len img
  /\ forall k a, match a with
                 | Gives n => 2048 <= n -> exists b, read_sector (short_mem_fs a t) s k = Ok b /\ is_sector img k b
                 | Fails e => read_sector (short_mem_fs a t) s k = Err e \/ exists b, read_sector (short_mem_fs a t) s k = Ok b /\ is_sector img k b
                 end.
Proof. exact c172_compress_lemma. Qed.
Print Assumptions c172_compress_partial.

(** Calls that give one, two, three, ... bytes; and a disk with a defect. *)
Definition c172_slow : schedule := fun k => Gives (k + 1).
Definition c172_defect : schedule := fun k => if k =? 2 then Fails (IoOther 5) else Gives 1.
Definition c172_tree : ftree := FDir [(text "a", FFile [x61; x62; x63; x64; x65; x66; x67]); (text "b", FFile [x68])].
Example c172_slow_fine : never_fails c172_slow.
Proof. intros k e. discriminate. Qed.
Definition c172_run := create_xdvdfs_image 10 Debug short_wdev (short_fs c172_slow c172_tree) (([], 0), []).
Example c172_example :
  short_copy_file c172_slow c172_tree [text "a"] ([], 0) 0 2 7 = (([x00; x00; x61; x62; x63; x64; x65; x66; x67], 4), Ok 7)
  /\ short_copy_file c172_slow c172_tree [text "a"] ([], 0) 0 0 9 = (([x61; x62; x63; x64; x65; x66; x67], 5), Ok 7)
  /\ short_copy_file c172_defect c172_tree [text "a"] ([], 0) 0 0 7 = (([x61; x62], 3), Err (IoOther 5))
  /\ short_dev (fun _ _ => c172_slow) [x61; x62; x63; x64] 1 3 = Ok [x62; x63; x64]
  /\ short_dev (fun _ _ => c172_slow) [x61; x62; x63; x64] 2 3 = Err UnexpectedEof
  /\ short_dev (fun _ _ => c172_defect) [x61; x62; x63; x64] 0 4 = Err (IoOther 5)
  /\ snd c172_run = Ok tt /\ snd (fst (fst c172_run)) = 5.
Proof. vm_all. Qed.

(** One call that gives a single byte, and the compressed image has a zero in place of
    the second byte of a file, without any error. *)
Definition c172_layout : lin := fst (fst (compress_layout 10 Debug (std_mem_fs c172_tree) ([], []))).
Theorem c172_compress_refuted :
  exists t s evs k n b b', compress_layout 10 Debug (std_mem_fs t) ([], []) = ((s, evs), Ok tt) /\ 0 < n
  /\ read_sector (std_mem_fs t) s k = Ok b /\ read_sector (short_mem_fs (Gives n) t) s k = Ok b' /\ byte_at b 1 = x62 /\ byte_at b' 1 = x00.
Proof.
  exists c172_tree, c172_layout, (snd (fst (compress_layout 10 Debug (std_mem_fs c172_tree) ([], [])))), 34, 1,
    (match read_sector (std_mem_fs c172_tree) c172_layout 34 with Ok b => b | _ => [] end),
    (match read_sector (short_mem_fs (Gives 1) c172_tree) c172_layout 34 with Ok b => b | _ => [] end).
  split; [vm_compute; reflexivity|]. split; [reflexivity|]. repeat split; vm_compute; reflexivity.
Qed.
Print Assumptions c172_compress_refuted.
