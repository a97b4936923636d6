(** Property C175: what unpack prints. *)
From Verif Require Import M_Base M_Util M_Layout M_Read M_Img M_Cli M_Host M_Unpack M_Loud.
From Verif Require Import S_Codec S_Read S_Img S_Check S_Cli S_Unpack S_Loud.
From Verif Require Import P_Base P_Src P_Vm P_Unpack P_Host P_Loud.
From Coq Require Import Init.Byte Strings.String.
From Coq Require Import List.
Local Close Scope string_scope.
Local Open Scope N_scope.

(** C175: when an image is unpacked to a free place, each entry is told by one line. *)
Theorem c175_lines :
  forall cwd image_path file dest t w, is_image file t -> unix_tree t -> ready_for cwd dest t w -> plainly dest ->
  exists w' ns, returns (fun fuel => loud_unpack fuel cwd image_path file (Some dest) w) ((w', map (extracting dest) ns), Ok tt)
   /\ enumerates t ns /\ restored (place cwd dest) t (w_fs w) (w_fs w').
Proof. exact c175_lemma. Qed.
Print Assumptions c175_lines.

(** Any image on any host: if the host refuses something, the last line tells the entry
    that could not be extracted, and those told before have been. *)
Theorem c175_failure :
  forall fuel cwd image_path file dest w w' lines e, loud_unpack fuel cwd image_path file (Some dest) w = ((w', lines), Err (UHost e)) ->
  exists base t1 x w1, lines = map (extract_line dest) (t1 ++ [x])
   /\ copyout_loop cwd file base dest t1 w = (w1, Ok tt) /\ copyout_loop cwd file base dest [x] w1 = (w', Err e).
Proof. exact c175_failure_lemma. Qed.
Print Assumptions c175_failure.

(** Printing does not change what is done. *)
Theorem c175_same :
  forall fuel cwd image_path file target w,
  (fst (fst (loud_unpack fuel cwd image_path file target w)), snd (loud_unpack fuel cwd image_path file target w)) = cmd_unpack fuel cwd image_path file target w.
Proof. exact c175_same_lemma. Qed.
Print Assumptions c175_same.

(** a ("hi"), S/D/c ("x"), S/E (empty directory). *)
Definition c175_tree : ftree :=
  FDir [(text "a", FFile [x68; x69]); (text "S", FDir [(text "D", FDir [(text "c", FFile [x78])]); (text "E", FDir [])])].
Definition c175_img : list byte := fst (fst (create_xdvdfs_image 10 Debug file_wdev (std_fs c175_tree) ([], []))).
Definition c175_run (w : world) := loud_unpack 20 [] (text "i") c175_img (Some (text "out")) w.
Example c175_example :
  snd (c175_run (bare [[]])) = Ok tt
  /\ snd (fst (c175_run (bare [[]]))) = [text "Extracting file out/a"; text "Extracting directory out/S"; text "Extracting directory out/S/D";
       text "Extracting directory out/S/E"; text "Extracting file out/S/D/c"]
  /\ ready_for [] (text "out") c175_tree (bare [[]]) /\ plainly (text "out").
Proof.
  split; [vm_compute; reflexivity|]. split; [vm_compute; reflexivity|]. split; [apply bare_ready; [apply unix_name_b_ok; reflexivity|discriminate]|].
  exists (text "ou"), 116. split; [reflexivity|discriminate].
Qed.

(** A directory "S" that is there already ends it. *)
Example c175_exists :
  snd (c175_run (bare [[]; [text "out"]; [text "out"; text "S"]])) = Err (UHost HAlreadyExists)
  /\ snd (fst (c175_run (bare [[]; [text "out"]; [text "out"; text "S"]]))) = [text "Extracting file out/a"; text "Extracting directory out/S"].
Proof. vm_all. Qed.
