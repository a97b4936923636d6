(** Property C141: the checksum survives rewriting an image. *)
From Verif Require Import M_Base M_Util M_Layout M_Read M_Img M_Check M_Remap M_Cli M_Unpack M_Exiso M_Extract M_Copyout M_Stdfs M_Host M_Main.
From Verif Require Import S_Avl S_Codec S_Read S_Img S_Xfs S_Check S_Cli S_Unpack S_Exiso S_Stdfs S_Fault S_Extract S_Sectors S_Main S_Again.
From Verif Require Import P_Base P_Witness P_More P_Src P_Cli P_Host P_Unpack P_Exiso P_Stdfs P_Extract P_Main P_Again.
From Coq Require Import Init.Byte Permutation Strings.String.
From Coq Require Import List.
Local Close Scope string_scope.
Local Open Scope N_scope.

(** C141: pack from an image. *)
Theorem c141_pack_image :
  forall H m dup ls cwd src i w p file d v t, canonicalize (w_fs w) cwd src = Ok p -> w_fs w p = Some (HFile file) ->
  open_image file = Ok d -> read_volume d = Ok v -> contains d t (v_root v) -> tidy d (v_root v) -> source t -> latin_tree t -> plain t ->
  ready_for_file cwd i w -> place cwd i <> p ->
  exists w' told st, returns (fun fuel => main H m fuel dup cwd (std_packer ls fuel m) (Core (inl (Pack src (Some i)))) w) (mkProcess w' [] told st)
   /\ (st = Some 0 \/ st = Some 1)
   /\ (st = Some 0 -> forall pk, exists h, returns (fun fuel => main H m fuel dup cwd pk (Core (inl (Checksum [src; i]))) w') (mkProcess w' [h ++ [9] ++ src; h ++ [9] ++ i] None (Some 0))).
Proof. exact c141_repack_lemma. Qed.
Print Assumptions c141_pack_image.
(** extract-xiso -r. *)
Theorem c141_rewrite :
  forall H m dup ls cwd x w p q file d v t qe qa, Forall unix_name cwd -> w_left w = None -> rooted (w_fs w) -> canonicalize (w_fs w) cwd x = Ok p -> w_fs w p = Some (HFile file) ->
  moved_to p q -> p <> q -> w_fs w q <> Some HDir ->
  open_image file = Ok d -> read_volume d = Ok v -> contains d t (v_root v) -> tidy d (v_root v) -> source t -> latin_tree t -> plain t ->
  exists w' told st, returns (fun fuel => main H m fuel dup cwd (std_packer ls fuel m) (Exiso (mkEx None false qe qa (ModeR [x]))) w) (mkProcess w' [] told st)
   /\ (st = Some 0 \/ st = Some 1)
   /\ (st = Some 0 -> forall pk, exists h, returns (fun fuel => main H m fuel dup cwd pk (Core (inl (Checksum [x]))) w) (mkProcess w [h ++ [9] ++ x] None (Some 0))
        /\ returns (fun fuel => main H m fuel dup cwd pk (Core (inl (Checksum [x]))) w') (mkProcess w' [h ++ [9] ++ x] None (Some 0))).
Proof. exact c141_rewrite_lemma. Qed.
Print Assumptions c141_rewrite.
(** unpack, and pack of the directory; the image may be of any origin. *)
Theorem c141_unpack_and_pack :
  forall H m dup cwd s dest i w ip file t, Forall unix_name cwd -> canonicalize (w_fs w) cwd s = Ok ip -> w_fs w ip = Some (HFile file) -> is_image file t -> unix_tree t -> source t ->
  ready_for cwd dest t w -> dest <> [] -> ready_for_file cwd i w -> apart (place cwd i) (place cwd dest) -> place cwd i <> ip ->
  exists w1, (forall pk, returns (fun fuel => main H m fuel dup cwd pk (Core (inl (Unpack s (Some dest)))) w) (mkProcess w1 [] None (Some 0)))
   /\ forall ls, lists_host (w_fs w1) ls ->
      exists w2 told st, returns (fun fuel => main H m fuel dup cwd (std_packer ls fuel m) (Core (inl (Pack dest (Some i)))) w1) (mkProcess w2 [] told st)
      /\ (st = Some 0 \/ st = Some 1)
      /\ (st = Some 0 -> forall pk, exists h, returns (fun fuel => main H m fuel dup cwd pk (Core (inl (Checksum [s; i]))) w2) (mkProcess w2 [h ++ [9] ++ s; h ++ [9] ++ i] None (Some 0))).
Proof. exact c141_unpack_lemma. Qed.
Print Assumptions c141_unpack_and_pack.

(** The image i of A ("a"); it is packed to j and unpacked to e, and e is packed to k. *)
Definition c141_world : world :=
  mkWorld (fun q => match q with [] => Some HDir | [n] => if str_eqb n (text "i") then Some (HFile (image_of (record 0 0 34 1 32 [x41]) [x61])) else None | _ => None end) None.
Definition c141_run (t : toplevel) (w : world) : process := main (firstn 8) Debug 20 (fun _ => false) [] (std_packer (fun _ => [text "A"]) 20 Debug) t w.
Definition c141_again : process := c141_run (Core (inl (Pack (text "i") (Some (text "j"))))) c141_world.
Definition c141_files : process := c141_run (Core (inl (Unpack (text "i") (Some (text "e"))))) (p_world c141_again).
Definition c141_third : process := c141_run (Core (inl (Pack (text "e") (Some (text "k"))))) (p_world c141_files).
Definition c141_sums : process := c141_run (Core (inl (Checksum [text "i"; text "j"; text "k"]))) (p_world c141_third).
Example c141_example :
  (p_status c141_sums, p_out c141_sums) = (Some 0, [text "2f4161" ++ [9] ++ text "i"; text "2f4161" ++ [9] ++ text "j"; text "2f4161" ++ [9] ++ text "k"]).
Proof. vm_compute. reflexivity. Qed.
