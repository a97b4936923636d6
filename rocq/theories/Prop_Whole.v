(** Property C149: extract-xiso and copy-out from end to end. *)
From Verif Require Import M_Base M_Util M_Layout M_Read M_Img M_Check M_Remap M_Cli M_Unpack M_Exiso M_Extract M_Copyout M_Stdfs M_Host M_Main.
From Verif Require Import S_Avl S_Codec S_Read S_Img S_Dev S_Xfs S_Check S_Cli S_Unpack S_Exiso S_Stdfs S_Fault S_Extract S_Main S_Whole.
From Verif Require Import P_Vm P_Base P_Witness P_Src P_Host P_Unpack P_Exiso P_Stdfs P_Whole.
From Coq Require Import Init.Byte Strings.String.
From Coq Require Import List.
Local Close Scope string_scope.
Local Open Scope N_scope.

(** extract-xiso -r exits with 0 and has packed the tree of every image again; the
    originals remain beside the new images, or with -D are gone. Nothing else changes. *)
Theorem c149_rewrite :
  forall H m dup ls cwd w del q qa js, Forall unix_name cwd -> w_left w = None -> rooted (w_fs w) -> Forall (rewritable m cwd (w_fs w)) js -> NoDup (map r_at js ++ map r_old js) ->
  exists w', returns (fun fuel => main H m fuel dup cwd (std_packer ls fuel m) (Exiso (mkEx None del q qa (ModeR (map r_arg js)))) w) (mkProcess w' [] None (Some 0))
   /\ (forall j, In j js -> (exists img, w_fs w' (r_at j) = Some (HFile img) /\ packs m (r_tree j) img) /\ w_fs w' (r_old j) = if del then None else Some (HFile (r_file j)))
   /\ forall z, ~ In z (map r_at js ++ map r_old js) -> w_fs w' z = w_fs w z.
Proof. exact c149_rewrite_lemma. Qed.
Print Assumptions c149_rewrite.
(** Whatever fails, even with -D and -d, an image that could not be rewritten is still there. *)
Theorem c149_failed_rewrite :
  forall H m fuel dup pk cwd w d del q qa x p o b, Forall unix_name cwd -> canonicalize (w_fs w) cwd x = Ok p -> w_fs w p = Some (HFile b) -> moved_to p o ->
  let r := main H m fuel dup cwd pk (Exiso (mkEx d del q qa (ModeR [x]))) w in
  ~ exits_ok r -> w_fs (p_world r) p = Some (HFile b) \/ w_fs (p_world r) o = Some (HFile b).
Proof. exact c149_failed_lemma. Qed.
Print Assumptions c149_failed_rewrite.
(** extract-xiso -x exits with 0 and has restored the tree of every image. *)
Theorem c149_extract :
  forall H m dup pk cwd w del q qa js, w_left w = None -> rooted (w_fs w) -> w_fs w cwd = Some HDir -> Forall (extractable cwd (w_fs w)) js -> NoDup (map j_stem js) ->
  exists w', returns (fun fuel => main H m fuel dup cwd pk (Exiso (mkEx None del q qa (ModeX (map j_path js)))) w) (mkProcess w' [] None (Some 0))
    /\ (forall j, In j js -> S_Extract.tree_at (w_fs w') (cwd ++ [j_stem j]) (j_tree j))
    /\ forall z, (forall j, In j js -> ~ leads_to (cwd ++ [j_stem j]) z) -> w_fs w' z = w_fs w z.
Proof. exact c149_extract_lemma. Qed.
Print Assumptions c149_extract.
(** extract-xiso -c exits with 0 and has packed every directory; only the images are new. *)
Theorem c149_create :
  forall H m dup ls cwd w d del q qa j js, Forall unix_name cwd -> w_left w = None -> rooted (w_fs w) -> Forall (creatable m ls cwd (w_fs w)) (j :: js) -> Forall (fun j => c_file j = None) js ->
  NoDup (map c_out (j :: js)) -> (forall a b, In a (j :: js) -> In b (j :: js) -> ~ leads_to (c_at a) (c_out b)) ->
  exists w', returns (fun fuel => main H m fuel dup cwd (std_packer ls fuel m) (Exiso (mkEx d del q qa (ModeC (c_dir j) (c_file j) (create_line (map (fun j => (c_dir j, None)) js))))) w)
      (mkProcess w' [] None (Some 0))
   /\ (forall a, In a (j :: js) -> exists img, w_fs w' (c_out a) = Some (HFile img) /\ packs m (c_tree a) img)
   /\ forall z, ~ In z (map c_out (j :: js)) -> w_fs w' z = w_fs w z.
Proof. exact c149_create_lemma. Qed.
Print Assumptions c149_create.
(** -c followed by -x: both exit with 0, and the copy equals the source. *)
Theorem c149_round_trip :
  forall H m dup ls cwd w src i p t s n dir, Forall unix_name cwd -> w_left w = None -> rooted (w_fs w) -> w_fs w cwd = Some HDir ->
  creatable m ls cwd (w_fs w) (mkCjob src (Some i) p (place cwd i) t) -> unix_tree t -> t <> FDir [] ->
  place cwd i = dir ++ [n] -> stem_of n s -> unix_name s -> w_fs w (cwd ++ [s]) = None -> place cwd i <> cwd ++ [s] ->
  ~ leads_to p (place cwd i) -> apart p (cwd ++ [s]) ->
  exists w1 w2,
    returns (fun fuel => main H m fuel dup cwd (std_packer ls fuel m) (Exiso (mkEx None false false false (ModeC src (Some i) []))) w) (mkProcess w1 [] None (Some 0))
   /\ returns (fun fuel => main H m fuel dup cwd (std_packer ls fuel m) (Exiso (mkEx None false false false (ModeX [i]))) w1) (mkProcess w2 [] None (Some 0))
   /\ (forall q, w_fs w2 ((cwd ++ [s]) ++ q) = w_fs w (p ++ q)) /\ untouched p (w_fs w) (w_fs w2).
Proof. exact c149_trip_lemma. Qed.
Print Assumptions c149_round_trip.
(** copy-out of a directory. *)
Theorem c149_copy_out :
  forall H m dup pk cwd s ip file src dest t cs w, canonicalize (w_fs w) cwd s = Ok ip -> w_fs w ip = Some (HFile file) -> is_image file t -> unix_tree t -> S_Cli.selects_dir t src cs -> ready_for cwd dest (FDir cs) w ->
  exists w', returns (fun fuel => main H m fuel dup cwd pk (Core (inl (CopyOut s src dest))) w) (mkProcess w' [] None (Some 0))
    /\ restored (place cwd dest) (FDir cs) (w_fs w) (w_fs w').
Proof. exact c149_copy_dir_lemma. Qed.
Print Assumptions c149_copy_out.

(** From the directory d to g.iso, then -r, -r -D, -x, and copy-out of S; -r of a directory fails. *)
Definition c149_tree : ftree := FDir [(text "a", FFile [x68; x69]); (text "S", FDir [(text "c", FFile [x78])])].
Definition c149_main (t : toplevel) (w : world) : process := main (firstn 4) Debug 20 (fun _ => true) [] (std_packer (planted_ls c149_tree) 20 Debug) t w.
Definition c149_ex (del : bool) (mode : exmode) (w : world) : process := c149_main (Exiso (mkEx None del false false mode)) w.
Definition c149_size (w : world) (p : list str) : option N := match w_fs w p with Some (HFile b) => Some (len b) | Some HDir => Some 0 | None => None end.
Definition c149_g (s : str) : list str := [text "g" ++ s].
Definition c149_look (p : process) : option N * list (option N) :=
  (p_status p, map (c149_size (p_world p)) [c149_g (text ".iso"); c149_g (text ".old"); [text "g"; text "a"]; [text "g"; text "S"; text "c"]; [text "o"; text "c"]]).
Definition c149_packed : world := p_world (c149_ex false (ModeC (text "d") (Some (text "g.iso")) []) (planted (text "d") c149_tree)).
Example c149_example :
  map c149_look [c149_ex false (ModeR [text "g.iso"]) c149_packed; c149_ex true (ModeR [text "g.iso"]) c149_packed; c149_ex true (ModeX [text "g.iso"]) c149_packed;
    c149_main (Core (inl (CopyOut (text "g.iso") (text "/S") (text "o")))) c149_packed; c149_ex true (ModeR [text "d"]) c149_packed]
  = [(Some 0, [Some 131072; Some 131072; None; None; None]); (Some 0, [Some 131072; None; None; None; None]); (Some 0, [Some 131072; None; Some 2; Some 1; None]);
     (Some 0, [Some 131072; None; None; None; Some 1]); (Some 1, [Some 131072; None; None; None; None])].
Proof. vm_compute. reflexivity. Qed.
