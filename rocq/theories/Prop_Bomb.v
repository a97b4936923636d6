(** Property C147: what is unpacked compared to the size of the image (read.rs
    [file_tree], cmd_unpack.rs). *)
From Verif Require Import M_Base M_Util M_Layout M_Read M_Img M_Dev M_Cli M_Host M_Unpack.
From Verif Require Import S_Codec S_Read S_Img S_Cli S_Unpack S_Bomb.
From Verif Require Import P_Base P_Vm P_Src P_More P_Unpack P_Bomb.
From Coq Require Import Init.Byte Strings.String.
From Coq Require Import List.
Local Close Scope string_scope.
Local Open Scope N_scope.

(** C147, partial: an image made by this library is longer than all the data in it,
    16 bytes for each entry, and 66 KiB. Missing: the same for every image. *)
Theorem c147_packed_partial : forall m t img, source t -> packs m t img ->
  67584 + 16 * count_entries t + count_bytes t <= len img.
Proof. exact c147_lemma. Qed.
Print Assumptions c147_packed_partial.

Definition c147_tree : ftree := FDir [(text "a", FFile [x68; x69]); (text "S", FDir [(text "b", FFile []); (text "c", FFile [x78])])].
Definition c147_img : list byte := fst (fst (create_xdvdfs_image 10 Debug file_wdev (std_fs c147_tree) ([], []))).
Example c147_example :
  source c147_tree /\ packs Debug c147_tree c147_img /\ count_entries c147_tree = 4 /\ count_bytes c147_tree = 3 /\ len c147_img = 131072.
Proof.
  assert (S : source c147_tree) by (apply source_b_ok; vm_compute; reflexivity). split; [exact S|].
  split; [apply (std_packs Debug c147_tree 10 []); [exact S|vm_compute; reflexivity]|]. vm_all.
Qed.

(** Finding: there are images of 68 + 2n KiB that unpack, without any error, to 2^n
    files of 2 KiB each, for all n: the tables of directories can be shared. *)
Theorem c147_growth : forall n cwd image_path dest w, 33 + N.of_nat n < u32_modulus -> ready_for cwd dest (bomb_tree n) w ->
  len (bomb_img n) = 69632 + 2048 * N.of_nat n
  /\ exists w', returns (fun fuel => cmd_unpack fuel cwd image_path (bomb_img n) (Some dest) w) (w', Ok tt)
      /\ restored (place cwd dest) (bomb_tree n) (w_fs w) (w_fs w').
Proof. exact c147_bomb. Qed.
Print Assumptions c147_growth.
Theorem c147_files : forall n, count_files (bomb_tree n) = 2 ^ N.of_nat n.
Proof. exact bomb_files. Qed.
Print Assumptions c147_files.
Theorem c147_bytes : forall n, count_bytes (bomb_tree n) = 2048 * 2 ^ N.of_nat n.
Proof. exact bomb_bytes. Qed.
Print Assumptions c147_bytes.

(** An image of 148 KiB unpacks to 2 TiB. *)
Theorem c147_unpack_refuted : exists file t, is_image file t /\ unix_tree t /\ 10000000 * len file < count_bytes t.
Proof.
  exists (bomb_img 40), (bomb_tree 40). split; [apply bomb_image; reflexivity|]. split; [apply bomb_names|].
  rewrite bomb_len, bomb_bytes. vm_compute. reflexivity.
Qed.
Print Assumptions c147_unpack_refuted.

Definition c147_run : world * res uerr unit := cmd_unpack 40 [] (text "i") (bomb_img 2) (Some (text "out")) (bare [[]]).
Example c147_case :
  ready_for [] (text "out") (bomb_tree 2) (bare [[]]) /\ snd c147_run = Ok tt
  /\ map (w_fs (fst c147_run)) [[text "out"; text "a"; text "b"; text "x"]; [text "out"; text "b"; text "b"; text "x"]]
     = [Some (HFile bomb_data); Some (HFile bomb_data)].
Proof. split; [apply bare_ready; [apply unix_name_b_ok; reflexivity|discriminate]|]. vm_all. Qed.
