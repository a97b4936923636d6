(** Properties C45, C46: the checksum of an image (checksum.rs). [contains d t r]:
    a well-formed image of the tree [t], whatever the shape of its search trees
    and the place of its regions. [plain t]: no name contains a slash. The
    theorems hold for every hash function [H]. *)
From Verif Require Import M_Base M_Util M_Layout M_Read M_Img M_Check S_Avl S_Codec S_Read S_Img S_Check.
From Verif Require Import P_Vm.
From Verif Require Import P_Base P_Codec P_More P_Packed P_Check.
From Coq Require Import Init.Byte Permutation Sorting.Sorted.
Local Open Scope N_scope.

(** C45: the hashed bytes are all paths in order, each followed by its file data. *)
Theorem c45_hashed_bytes :
  forall H d v t, lawful d -> is_fdir t = true -> plain t -> contains d t (v_root v) ->
  exists s, fingerprint t s /\ returns (fun fuel => checksum H fuel d v) (Ok (H (stream s))).
Proof. exact c45_lemma. Qed.
Print Assumptions c45_hashed_bytes.

Theorem c45_checksum_depends_only_on_contents :
  forall H d d' v v' t t', lawful d -> lawful d' -> is_fdir t = true -> plain t -> plain t' -> same_tree t t' ->
  contains d t (v_root v) -> contains d' t' (v_root v') ->
  exists h, returns (fun fuel => checksum H fuel d v) (Ok h) /\ returns (fun fuel => checksum H fuel d' v') (Ok h).
Proof. exact c45_same. Qed.
Print Assumptions c45_checksum_depends_only_on_contents.

Theorem c45_packed_images :
  forall H m m' t t' img img' v v', source t -> source t' -> plain t -> plain t' -> same_tree t t' -> packs m t img -> packs m' t' img' ->
  read_volume (file_dev img) = Ok v -> read_volume (file_dev img') = Ok v' ->
  exists h, returns (fun fuel => checksum H fuel (file_dev img) v) (Ok h) /\ returns (fun fuel => checksum H fuel (file_dev img') v') (Ok h).
Proof. exact c45_packed. Qed.
Print Assumptions c45_packed_images.

(** b ("hi") and D/e (empty), listed in both orders; the paths are "/D", "/D/é" and "/b". *)
Definition c45_tree : ftree := FDir [([98], FFile [x68; x69]); ([68], FDir [([233], FFile [])])].
Definition c45_other : ftree := FDir [([68], FDir [([233], FFile [])]); ([98], FFile [x68; x69])].
Definition c45_sum (t : ftree) : res rerr (list byte) :=
  let img := fst (fst (create_xdvdfs_image 10 Debug file_wdev (std_fs t) ([], []))) in
  let* v := read_volume (file_dev img) in checksum (fun b => b) 20 (file_dev img) v.
Example c45_example :
  c45_sum c45_tree = Ok [x2f; x44; x2f; x44; x2f; xc3; xa9; x2f; x62; x68; x69]
  /\ c45_sum c45_other = c45_sum c45_tree
  /\ fingerprint c45_tree [([47; 68], None); ([47; 68; 47; 233], Some []); ([47; 98], Some [x68; x69])].
Proof.
  split; [vm_compute; reflexivity|]. split; [vm_compute; reflexivity|]. split.
  - repeat (apply SSorted_cons || apply SSorted_nil || apply Forall_cons || apply Forall_nil || (apply lex_lt_iff; reflexivity)).
  - intros k c. split.
    + intros [E|[E|[E|[]]]]; injection E as <- <-; [exists [[68]]|exists [[68]; [233]]|exists [[98]]]; eexists; (split; [discriminate|]); (split; [|split; [reflexivity|]]).
      * eapply at_child; [right; left; reflexivity|constructor].
      * reflexivity.
      * eapply at_child; [right; left; reflexivity|]. eapply at_child; [left; reflexivity|constructor].
      * reflexivity.
      * eapply at_child; [left; reflexivity|constructor].
      * reflexivity.
    + intros (p & t' & H1 & H2 & -> & ->). inversion H2 as [|? n t1 q ? Hin Hat]; subst; [congruence|].
      destruct Hin as [E|[E|[]]]; injection E as <- <-; inversion Hat as [|? n2 t2 q2 ? Hin2 Hat2]; subst; [right; right; left; reflexivity|left; reflexivity|].
      destruct Hin2 as [E|[]]; injection E as <- <-. inversion Hat2; subst. right. left. reflexivity.
Qed.

(** C46, partial: equal hashed bytes mean equal contents when the two images have
    the same paths, kinds and sizes. Missing: images that differ in those. *)
Theorem c46_hashed_bytes_separate_partial :
  forall d d' v v' t t' s s', lawful d -> lawful d' -> is_fdir t = true -> is_fdir t' = true -> plain t -> plain t' ->
  contains d t (v_root v) -> contains d' t' (v_root v') -> fingerprint t s -> fingerprint t' s' -> map shape s = map shape s' ->
  forall h, returns (fun fuel => checksum (fun b => b) fuel d v) (Ok h) -> returns (fun fuel => checksum (fun b => b) fuel d' v') (Ok h) -> s = s'.
Proof. exact (fun d d' v v' t t' s s' a b c e f g h i j k l => c46_lemma (fun x => x) d d' v v' t t' s s' a b c e f g h i j k l (fun x y E => E)). Qed.
Print Assumptions c46_hashed_bytes_separate_partial.

(** C46 is false: a file "a" holding "/b" and two empty files "a" and "b" give the
    same checksum. *)
Definition c46_one : ftree := FDir [([97], FFile [x2f; x62])].
Definition c46_two : ftree := FDir [([97], FFile []); ([98], FFile [])].
Theorem c46_hashed_bytes_separate_refuted :
  exists t t' img img' v v', source t /\ source t' /\ packs Release t img /\ packs Release t' img' /\ ~ same_tree t t'
  /\ read_volume (file_dev img) = Ok v /\ read_volume (file_dev img') = Ok v'
  /\ forall H, exists h, checksum H 10 (file_dev img) v = Ok h /\ checksum H 10 (file_dev img') v' = Ok h.
Proof.
  exists c46_one, c46_two.
  assert (S1 : source c46_one).
  { split; [reflexivity|]. split; [|split; [|reflexivity]]; repeat (first [apply every_dir_file|apply every_dir_node]; repeat constructor; cbn [map fst snd]); try discriminate; intros []. }
  assert (S2 : source c46_two).
  { split; [reflexivity|]. split; [|split; [|reflexivity]]; repeat (first [apply every_dir_file|apply every_dir_node]; repeat constructor; cbn [map fst snd]); try discriminate.
    - intros [E|[]]; discriminate.
    - intros []. }
  eexists. eexists. eexists. eexists. split; [exact S1|]. split; [exact S2|].
  split; [exact (std_packs Release c46_one 10 [] S1 ltac:(vm_compute; reflexivity))|].
  split; [exact (std_packs Release c46_two 10 [] S2 ltac:(vm_compute; reflexivity))|].
  split; [intros H; inversion H as [|? ? ? HP HF]; subst; apply Permutation_length in HP; inversion HF as [|? ? ? ? _ HF']; subst; inversion HF'; subst; discriminate HP|].
  split; [vm_compute; reflexivity|]. split; [vm_compute; reflexivity|].
  intros H. eexists. vm_all.
Qed.
Print Assumptions c46_hashed_bytes_separate_refuted.
