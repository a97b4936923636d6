(** Property C177: the lines that compress prints while it lays out the image. [show]
    writes a path. *)
From Verif Require Import M_Base M_Util M_Layout M_Read M_Img M_Dev M_Trie M_Xfs M_Lin M_Remap M_Cli M_Complines.
From Verif Require Import S_Read S_Img S_Trie S_Xfs S_Lin S_Lines S_Complines.
From Verif Require Import P_Base P_Src P_Geom P_Complines.
From Coq Require Import Init.Byte Strings.String.
From Coq Require Import List.
Local Close Scope string_scope.
Local Open Scope N_scope.

(** C177, partial: if packing the tree gives an image, compress lays out the same image
    with the same messages; the lines that say "dir" tell each directory once, and those
    that say "file" each entry but the root once, all with the sector in the image.
    Missing: a directory is also told by a line that says "file". *)
Theorem c177_lines_partial :
  forall show m t fs fsm fuel img evs, source t -> presents fs t -> copies fs t -> presents fsm t ->
  create_xdvdfs_image fuel m file_wdev fs ([], []) = ((img, evs), Ok tt) ->
  exists s l v, returns (fun fuel => compress_layout fuel m fsm ([], [])) ((s, evs), Ok tt) /\ lin_len s = len img
   /\ (sector_copies fsm t -> forall k, exists b, read_sector fsm s k = Ok b /\ is_sector img k b)
   /\ layout_lines show evs = map (plain_line show) l /\ NoDup l /\ read_volume (file_dev img) = Ok v
   /\ (forall p k, In (true, p, k) l <-> exists cs r, at_path t p (FDir cs) /\ region_at (file_dev img) (v_root v) p r /\ r_sector r = k)
   /\ (forall p k, In (false, p, k) l <-> p <> [] /\ exists t' r, at_path t p t' /\ region_at (file_dev img) (v_root v) p r /\ r_sector r = k).
Proof. exact c177_lemma. Qed.
Print Assumptions c177_lines_partial.

(** Compressing an image gives the same messages as packing the tree in it. *)
Theorem c177_from_image :
  forall m d v t fs fuel img evs, scans d t (v_root v) -> source t -> latin_tree t -> presents fs t -> copies fs t ->
  create_xdvdfs_image fuel m file_wdev fs ([], []) = ((img, evs), Ok tt) ->
  exists s n, lin_len s = len img /\ forall fuel, (n <= fuel)%nat -> exists c, compress_from_volume fuel m d v ([], []) = ((s, evs), Ok c).
Proof. exact c177_image_lemma. Qed.
Print Assumptions c177_from_image.

Definition c177_tree : ftree := FDir [(text "a", FFile [x41]); (text "d", FDir [(text "B", FFile [])])].
Definition c177_quoted (p : path) : str := [34] ++ as_string p ++ [34].
Definition c177_lines (t : ftree) : list str := layout_lines c177_quoted (snd (fst (compress_layout 10 Debug (std_mem_fs t) ([], [])))).

(** Finding: the directory "d" is told twice, and one line calls it a file. *)
Theorem c177_told_once_refuted :
  exists t cs, source t /\ at_path t [text "d"] (FDir cs)
   /\ snd (compress_layout 10 Debug (std_mem_fs t) ([], [])) = Ok tt
   /\ exists l1 l2, c177_lines t = l1 ++ [text "Added file: ""/d"" at sector 35"; text "Added dir: ""/d"" at sector 35"] ++ l2.
Proof.
  exists c177_tree, [(text "B", FFile [])]. split; [apply (source_b_ok c177_tree); vm_compute; reflexivity|].
  split; [eapply at_child; [right; left; reflexivity|apply at_here]|]. split; [vm_compute; reflexivity|].
  exists [text "Added dir: ""/"" at sector 33"; text "Added file: ""/a"" at sector 34"], [text "Added file: ""/d/B"" at sector 36"]. vm_compute. reflexivity.
Qed.
Print Assumptions c177_told_once_refuted.

Example c177_example :
  source c177_tree /\ snd (create_xdvdfs_image 10 Debug file_wdev (std_fs c177_tree) ([], [])) = Ok tt
  /\ snd (fst (create_xdvdfs_image 10 Debug file_wdev (std_fs c177_tree) ([], []))) = snd (fst (compress_layout 10 Debug (std_mem_fs c177_tree) ([], [])))
  /\ c177_lines c177_tree = [text "Added dir: ""/"" at sector 33"; text "Added file: ""/a"" at sector 34"; text "Added file: ""/d"" at sector 35";
                             text "Added dir: ""/d"" at sector 35"; text "Added file: ""/d/B"" at sector 36"].
Proof. split; [apply (source_b_ok c177_tree); vm_compute; reflexivity|]. split; [vm_compute; reflexivity|]. split; vm_compute; reflexivity. Qed.
Example c177_image_example :
  (let img := fst (fst (create_xdvdfs_image 10 Debug file_wdev (std_fs c177_tree) ([], []))) in
   match read_volume (file_dev img) with
   | Ok v => layout_lines c177_quoted (snd (fst (compress_from_volume 20 Debug (file_dev img) v ([], []))))
   | _ => []
   end) = c177_lines c177_tree.
Proof. vm_compute. reflexivity. Qed.
