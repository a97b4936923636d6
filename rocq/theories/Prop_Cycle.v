(** Which images make a traversal endless (C32, C118). *)
From Verif Require Import M_Base M_Util M_Layout M_Read S_Avl S_Read S_Cycle P_Witness P_Cycle.
From Coq Require Import Relations.
Local Open Scope N_scope.

(** C118: a lookup returns exactly if its search does not run in circles. *)
Theorem c118_lookup :
  forall d r segs path, lawful d -> real d -> path_of segs path ->
  (terminates (fun fuel => walk_path fuel d r path) <-> ~ circles d r segs).
Proof. exact (fun d r segs path HL HR => c32_lookup_lemma d HL HR r segs path). Qed.
Print Assumptions c118_lookup.

(** The listing of a table without a cycle of child pointers returns. *)
Theorem c118_table :
  forall d r, lawful d -> real d -> ~ cyclic_table d r -> terminates (fun fuel => walk_dirent_tree fuel d r).
Proof. exact (fun d r HL HR => walk_table_ends d HL HR r). Qed.
Print Assumptions c118_table.

(** If it succeeds, there is no cycle, and it lists exactly the entries that can be
    reached from the first one. *)
Theorem c118_table_success :
  forall d r fuel l, lawful d -> walk_dirent_tree fuel d r = Ok l ->
  ~ cyclic_table d r /\ forall e, In e l <-> exists o, clos_refl_trans N (points d r) 0 o /\ entry_at d r o e.
Proof. exact (fun d r fuel l HL => walk_tree_ok d HL r fuel l). Qed.
Print Assumptions c118_table_success.

(** The recursive listing returns if there is no cycle of child pointers and no
    directory that contains itself. *)
Theorem c118_tree :
  forall d r, lawful d -> real d -> ~ cyclic_tree d r -> terminates (fun fuel => file_tree fuel d r).
Proof. exact (fun d r HL HR => c32_tree_ends d HL HR r). Qed.
Print Assumptions c118_tree.

Theorem c118_tree_success :
  forall d r fuel l, lawful d -> file_tree fuel d r = Ok l -> ~ cyclic_tree d r.
Proof. exact (fun d r fuel l HL => c32_tree_success d HL fuel r l). Qed.
Print Assumptions c118_tree_success.

(** C32: tables without a cycle. Missing: cyclic ones, where c32_traversal_terminates_refuted
    applies. *)
Theorem c32_acyclic_images_terminate_partial :
  forall d r segs path, lawful d -> real d -> path_of segs path -> ~ circles d r segs -> ~ cyclic_tree d r ->
  terminates (fun fuel => walk_path fuel d r path) /\ terminates (fun fuel => file_tree fuel d r).
Proof. exact (fun d r segs path HL HR HP H1 H2 => conj (proj2 (c32_lookup_lemma d HL HR r segs path HP) H1) (c32_tree_ends d HL HR r H2)). Qed.
Print Assumptions c32_acyclic_images_terminate_partial.

(** The search for "A" in [loop_img] runs in circles, the one for "c" in [zigzag_img]
    does not, although one of its pointers points backwards. *)
Example c118_example_lookup :
  path_of [[65]] [65] /\ circles (file_dev loop_img) root33 [[65]]
  /\ path_of [[99]] [99] /\ ~ circles (file_dev zigzag_img) root33 [[99]]
  /\ match walk_path 9 (file_dev zigzag_img) root33 [99] with Ok e => name_str e = [99] | _ => False end.
Proof.
  assert (P : forall c, c <> 47 -> path_of [[c]] [c]).
  { intros c Hc. exists 0%nat, []. repeat split; [repeat constructor; intros [E|[]]; congruence|discriminate|discriminate|left; split; [reflexivity|discriminate]]. }
  assert (T : match walk_path 9 (file_dev zigzag_img) root33 [99] with Ok e => name_str e = [99] | _ => False end) by (vm_compute; reflexivity).
  split; [apply P; discriminate|]. split; [exact loop_circles|]. split; [apply P; discriminate|]. split; [|exact T].
  apply (c32_lookup_lemma _ (file_lawful _) (file_real _) root33 [[99]] [99]); [apply P; discriminate|].
  apply zigzag_lookup.
Qed.

(** [zigzag_img] has no cycle; [nest_img] has a directory that contains itself. *)
Example c118_example_tree :
  ~ cyclic_tree (file_dev zigzag_img) root33
  /\ match file_tree 9 (file_dev zigzag_img) root33 with Ok l => map (fun x => name_str (snd x)) l = [[100]; [101]; [99]] | _ => False end
  /\ cyclic_tree (file_dev nest_img) root33.
Proof.
  assert (T : match file_tree 9 (file_dev zigzag_img) root33 with Ok l => map (fun x => name_str (snd x)) l = [[100]; [101]; [99]] | _ => False end) by (vm_compute; reflexivity).
  split; [|split; [exact T|exact nest_cyclic]].
  destruct (file_tree 9 (file_dev zigzag_img) root33) as [l| | |] eqn:E; try contradiction.
  exact (c32_tree_success _ (file_lawful _) 9 root33 l E).
Qed.
