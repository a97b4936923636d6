(** Properties C132 and C133: the programs xdvdfs and extract-xiso as a whole. *)
From Verif Require Import M_Base M_Util M_Layout M_Read M_Img M_Check M_Remap M_Cli M_Unpack M_Exiso M_Extract M_Copyout M_Stdfs M_Host M_Main.
From Verif Require Import S_Avl S_Codec S_Read S_Img S_Check S_Cli S_Unpack S_Exiso S_Stdfs S_Fault S_Extract S_Main.
From Verif Require Import P_Vm.
From Verif Require Import P_Base P_Witness P_More P_Src P_Cli P_Host P_Unpack P_Exiso P_Stdfs P_Extract P_Main.
From Coq Require Import Init.Byte Permutation Strings.String.
From Coq Require Import List.
Local Close Scope string_scope.
Local Open Scope N_scope.

(** C132: the exit status is 0 exactly if the command succeeds, and 1 exactly if it
    reports an error; the error is told exactly if neither -q nor -Q is given. *)
Theorem c132_status :
  forall H m fuel dup cwd pk c w w' out r, run_command H m fuel dup cwd pk c w = ((w', out), r) ->
  let p := main H m fuel dup cwd pk (Core (inl c)) w in
  p_world p = w' /\ p_out p = out /\ (exits_ok p <-> r = Ok tt) /\ (exits_failed p <-> exists e, r = Err e)
  /\ (p_status p = Some 101 <-> exists k, r = Panic k) /\ (p_status p = None <-> r = OutOfFuel) /\ (forall e, p_error p = Some e <-> r = Err e).
Proof. exact c132_core_lemma. Qed.
Print Assumptions c132_status.
Theorem c132_exiso_status :
  forall H m fuel dup cwd pk c w w' out r, run_exiso_command fuel cwd pk c w = ((w', out), r) ->
  let p := main H m fuel dup cwd pk (Exiso c) w in
  p_world p = w' /\ p_out p = out /\ (exits_ok p <-> r = Ok tt) /\ (exits_failed p <-> exists e, r = Err e)
  /\ (p_status p = Some 101 <-> exists k, r = Panic k) /\ (p_status p = None <-> r = OutOfFuel)
  /\ (forall e, p_error p = Some e <-> (x_quiet_error c = false /\ x_quiet_all c = false) /\ r = Err e).
Proof. exact c132_exiso_lemma. Qed.
Print Assumptions c132_exiso_status.
(** A process that exits with 0 met no failure of the host: it has done what it does
    where no call fails. *)
Theorem c132_success_is_complete :
  forall H m fuel dup cwd pk t w, modelled t -> exits_ok (main H m fuel dup cwd pk t w) ->
  main H m fuel dup cwd pk t (unfailing w) = without_failures (main H m fuel dup cwd pk t w).
Proof. exact c132_honest_lemma. Qed.
Print Assumptions c132_success_is_complete.
(** ls, tree, md5, checksum, info and -l change nothing. *)
Theorem c132_readers : forall H m fuel dup cwd pk c w, reader c -> p_world (main H m fuel dup cwd pk (Core (inl c)) w) = w.
Proof. exact c132_reader_lemma. Qed.
Print Assumptions c132_readers.
Theorem c132_list_reads : forall H m fuel dup cwd pk d q qa del xs w, p_world (main H m fuel dup cwd pk (Exiso (mkEx d del q qa (ModeL xs))) w) = w.
Proof. exact c132_list_lemma. Qed.
Print Assumptions c132_list_reads.
(** -q and -Q silence the error, and change nothing else. *)
Theorem c132_quiet :
  forall H m fuel dup cwd pk c q qa w, let c' := mkEx (x_directory c) (x_delete c) q qa (x_mode c) in
  let p := main H m fuel dup cwd pk (Exiso c) w in let p' := main H m fuel dup cwd pk (Exiso c') w in
  p_world p' = p_world p /\ p_out p' = p_out p /\ p_status p' = p_status p /\ (q || qa = true -> p_error p' = None)
  /\ (q || qa = false -> x_quiet_error c || x_quiet_all c = false -> p' = p).
Proof. exact c132_quiet_lemma. Qed.
Print Assumptions c132_quiet.
(** extract-xiso is the same program as "xdvdfs extract-xiso", and -x is its default. *)
Theorem c132_same_program :
  forall H m fuel dup cwd pk c w, main H m fuel dup cwd pk (Core (inr c)) w = main H m fuel dup cwd pk (Exiso c) w.
Proof. exact c132_same_lemma. Qed.
Print Assumptions c132_same_program.
Theorem c132_default_mode :
  forall H m fuel dup cwd pk d del q qa xs w,
  main H m fuel dup cwd pk (Exiso (mkEx d del q qa (ModeNone xs))) w = main H m fuel dup cwd pk (Exiso (mkEx d del q qa (ModeX xs))) w.
Proof. exact c132_mode_lemma. Qed.
Print Assumptions c132_default_mode.

(** An image with the file "x". *)
Definition c132_img : list byte := image_of (record 0 0 34 1 32 [x78]) [x31].
Definition c132_world : world :=
  mkWorld (fold_right (fun f h => hset h (fst f) (HFile (snd f))) (w_fs (bare [[]; [text "d"]])) [([text "a"], c132_img); ([text "b"], [x31])]) None.
Definition c132_run (t : toplevel) : process := main (firstn 4) Debug 20 (fun _ => true) [] (fun _ _ => ([x31], Err HPack)) t c132_world.
Definition c132_seen (p : process) : list str * bool * option N := (p_out p, match p_error p with Some _ => true | None => false end, p_status p).
Example c132_example :
  map c132_seen (map c132_run [Core (inl (Tree (text "a"))); Core (inl (Tree (text "b"))); Core (inl (Ls (text "c") (text "/") false)); Core (inl (Unpack (text "a") (Some (text "o"))));
    Core (inl (Unpack (text "..") None)); Core (inl (Pack (text "d") (Some (text "p")))); Exiso (mkEx None false true false (ModeL [text "a"; text "b"; text "a"]))])
  = [([text "/x (1 bytes)"; text "1 files, 1 bytes in a"], false, Some 0); ([], true, Some 1); ([], true, Some 1); ([], false, Some 0);
     ([], false, Some 101); ([], true, Some 1); ([text "/x (1 bytes)"; text "1 files, 1 bytes in a"], false, Some 1)].
Proof. vm_compute. reflexivity. Qed.
(** The calls that may fail: with two of them, unpack exits with 1, with three with 0. *)
Example c132_fails :
  map (fun n => p_status (main (firstn 4) Debug 20 (fun _ => true) [] (fun _ _ => ([], Ok tt)) (Core (inl (Unpack (text "a") (Some (text "o"))))) (mkWorld (w_fs c132_world) (Some n)))) [0; 1; 2; 3]
  = [Some 1; Some 1; Some 1; Some 0].
Proof. vm_compute. reflexivity. Qed.

(** C133: from end to end, on files of the host. checksum prints a line for each image. *)
Theorem c133_checksum :
  forall H m dup cwd pk w images ts, Forall (fun x => is_file w cwd (fst x) (snd x)) images -> Forall2 (fun x t => is_image (snd x) t /\ plain t) images ts ->
  exists ss, Forall2 fingerprint ts ss
    /\ returns (fun fuel => main H m fuel dup cwd pk (Core (inl (Checksum (map fst images)))) w)
         (mkProcess w (map (fun x => hex_text (H (stream (snd x))) ++ [9] ++ fst (fst x)) (combine images ss)) None (Some 0)).
Proof. exact c133_checksum_lemma. Qed.
Print Assumptions c133_checksum.
(** At the first file that is no image it stops with an error; the lines of those
    before it have been printed. *)
Theorem c133_checksum_stops :
  forall H m dup cwd pk w images ts name file rest, Forall (fun x => is_file w cwd (fst x) (snd x)) (images ++ (name, file) :: rest) ->
  Forall2 (fun x t => is_image (snd x) t /\ plain t) images ts -> (exists e, (let* d := open_image file in read_volume d) = Err e) ->
  exists ss e, Forall2 fingerprint ts ss
    /\ returns (fun fuel => main H m fuel dup cwd pk (Core (inl (Checksum (map fst (images ++ (name, file) :: rest))))) w)
         (mkProcess w (map (fun x => hex_text (H (stream (snd x))) ++ [9] ++ fst (fst x)) (combine images ss)) (Some e) (Some 1)).
Proof. exact c133_stops_lemma. Qed.
Print Assumptions c133_checksum_stops.
(** extract-xiso -l lists every image. *)
Theorem c133_list :
  forall H m dup cwd pk w d del q qa (js : list (str * list byte * ftree)), Forall (fun j => is_file w cwd (fst (fst j)) (snd (fst j)) /\ is_image (snd (fst j)) (snd j)) js ->
  exists outs, Forall2 (fun (j : str * list byte * ftree) lines => exists body, Permutation body (map row_line (rows [] (snd j)))
      /\ lines = body ++ [decimal (count_files (snd j)) ++ text " files, " ++ decimal (count_bytes (snd j)) ++ text " bytes in " ++ fst (fst j)]) js outs
    /\ returns (fun fuel => main H m fuel dup cwd pk (Exiso (mkEx d del q qa (ModeL (map (fun j => fst (fst j)) js)))) w) (mkProcess w (concat outs) None (Some 0)).
Proof. exact c133_list_lemma. Qed.
Print Assumptions c133_list.
(** unpack restores the tree and exits with 0. *)
Theorem c133_unpack :
  forall H m dup cwd pk s dest w ip file t, canonicalize (w_fs w) cwd s = Ok ip -> w_fs w ip = Some (HFile file) -> is_image file t -> unix_tree t -> ready_for cwd dest t w ->
  exists w', returns (fun fuel => main H m fuel dup cwd pk (Core (inl (Unpack s (Some dest)))) w) (mkProcess w' [] None (Some 0))
    /\ restored (place cwd dest) t (w_fs w) (w_fs w') /\ w_fs w' ip = Some (HFile file).
Proof. exact c133_unpack_lemma. Qed.
Print Assumptions c133_unpack.
(** pack followed by unpack: both exit with 0, and the copy equals the source. *)
Theorem c133_pack_then_unpack :
  forall H m dup ls cwd src i dest w p t, Forall unix_name cwd -> canonicalize (w_fs w) cwd src = Ok p -> hosts (w_fs w) ls p t -> source t -> representable m t -> unix_tree t ->
  ready_for_file cwd i w -> ready_for cwd dest t w -> apart p (place cwd i) -> apart p (place cwd dest) -> apart (place cwd i) (place cwd dest) ->
  exists w1 w2, returns (fun fuel => main H m fuel dup cwd (std_packer ls fuel m) (Core (inl (Pack src (Some i)))) w) (mkProcess w1 [] None (Some 0))
   /\ returns (fun fuel => main H m fuel dup cwd (std_packer ls fuel m) (Core (inl (Unpack i (Some dest)))) w1) (mkProcess w2 [] None (Some 0))
   /\ (forall q, w_fs w2 (place cwd dest ++ q) = w_fs w (p ++ q)) /\ untouched p (w_fs w) (w_fs w2).
Proof. exact c133_pack_unpack_lemma. Qed.
Print Assumptions c133_pack_then_unpack.

Example c133_example :
  map c132_seen (map c132_run [Core (inl (Checksum [text "a"; text "./a"])); Core (inl (Checksum [text "a"; text "b"; text "a"]))])
  = [([text "2f7831" ++ [9] ++ text "a"; text "2f7831" ++ [9] ++ text "./a"], false, Some 0); ([text "2f7831" ++ [9] ++ text "a"], true, Some 1)].
Proof. vm_compute. reflexivity. Qed.
Definition c133_tree : ftree := FDir [(text "a", FFile [x68; x69]); (text "S", FDir [(text "c", FFile [x78])])].
Definition c133_world : world := planted (text "d") c133_tree.
Definition c133_main (t : toplevel) (w : world) : process := main (firstn 4) Debug 20 (fun _ => false) [] (std_packer (planted_ls c133_tree) 20 Debug) t w.
Definition c133_packed : process := c133_main (Core (inl (Pack (text "d") (Some (text "d.iso"))))) c133_world.
Definition c133_unpacked : process := c133_main (Core (inl (Unpack (text "d.iso") (Some (text "e"))))) (p_world c133_packed).
Example c133_round_trip :
  p_status c133_packed = Some 0 /\ p_status c133_unpacked = Some 0
  /\ map (w_fs (p_world c133_unpacked)) [[text "e"; text "a"]; [text "e"; text "S"; text "c"]; [text "e"; text "c"]] = [Some (HFile [x68; x69]); Some (HFile [x78]); None].
Proof. vm_all. Qed.
