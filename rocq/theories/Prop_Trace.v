(** Property C144: lookups read few entries. *)
From Verif Require Import M_Base M_Util M_Layout M_Read M_Img M_Trace.
From Verif Require Import S_Avl S_Codec S_Read S_Img.
From Verif Require Import P_Base P_Tree P_Read P_Witness P_Packed P_Run P_More P_Trace.
From Coq Require Import Init.Byte.
From Coq Require Import List.
Local Open Scope N_scope.

(** C144: the recorded lookups are the lookups. *)
Theorem c144_same :
  forall d r path fuel, snd (walk_trace fuel d r path) = walk_path fuel d r path.
Proof. exact walk_trace_same. Qed.
Print Assumptions c144_same.
(** In a packed image with at most [n] entries per directory, a lookup reads at most [k] entries per component,
    where the Fibonacci number of k + 3 exceeds n + 1: about 1.44 times the binary logarithm of n. *)
Theorem c144_packed :
  forall m t img v n k segs path fuel, source t -> packs m t img -> read_volume (file_dev img) = Ok v -> path_of segs path ->
  every_dir (fun cs => (length cs <= n)%nat) t -> (1 <= k)%nat -> (n + 1 < fib (k + 3))%nat -> (length (fst (walk_trace fuel (file_dev img) (v_root v) path)) <= k * length segs)%nat.
Proof. exact c144_lemma. Qed.
Print Assumptions c144_packed.
(** At most 19 in any packed image. *)
Theorem c144_any_packed :
  forall m t img v segs path fuel, source t -> packs m t img -> read_volume (file_dev img) = Ok v -> path_of segs path ->
  (length (fst (walk_trace fuel (file_dev img) (v_root v) path)) <= 19 * length segs)%nat.
Proof. exact c144_any_lemma. Qed.
Print Assumptions c144_any_packed.
(** In a well-formed directory of any origin, at most its depth. *)
Theorem c144_foreign :
  forall d r T name fuel, lawful d -> directory d r T -> (length (fst (find_dirent_trace fuel d r name)) <= Nat.max 1 (depth T))%nat.
Proof. exact c144_foreign_lemma. Qed.
Print Assumptions c144_foreign.
(** Nothing is read of a directory without a table. *)
Theorem c144_empty : forall d r name fuel, r_size r = 0 -> find_dirent_trace fuel d r name = ([], Err DirectoryEmpty).
Proof. exact c144_empty_lemma. Qed.
Print Assumptions c144_empty.

Definition c144_tree : ftree := FDir [([97], FFile [x68; x69]); ([98], FFile []); ([99], FFile [])].
Example c144_example :
  source c144_tree /\ (forall path segs img v m fuel, packs m c144_tree img -> read_volume (file_dev img) = Ok v -> path_of segs path ->
    (length (fst (walk_trace fuel (file_dev img) (v_root v) path)) <= 2 * length segs)%nat)
  /\ snd (create_xdvdfs_image 10 Debug file_wdev (std_fs c144_tree) ([], [])) = Ok tt
  /\ fst (walk_trace 9 (file_dev c31_img) root33 [97]) = [67584; 67604].
Proof.
  assert (HS : source c144_tree).
  { split; [reflexivity|]. split; [|split; [|reflexivity]].
    - unfold proper. repeat (first [apply every_dir_file|apply every_dir_node]; repeat constructor; cbn [map fst snd]);
        intros H; cbn in H; repeat destruct H as [H|H]; try discriminate; auto.
    - repeat (first [apply every_dir_file|apply every_dir_node]; repeat constructor; cbn [snd]); try discriminate. }
  split; [exact HS|]. split; [|split].
  - intros path segs img v m fuel Hp Hv HP. apply (c144_packed m c144_tree img v 3 2 segs path fuel); auto.
    + apply every_dir_node; [cbn; auto|]. repeat (apply Forall_cons; [apply every_dir_file|]). apply Forall_nil.
  - vm_compute. reflexivity.
  - vm_compute. reflexivity.
Qed.
