(** Properties C40 and C41: packing from an existing image
    (write/fs/xdvdfs.rs, write/img.rs). *)
From Verif Require Import M_Base M_Util M_Layout M_Avl M_Sector M_Dirtab M_Read M_Img M_Dev M_Trie M_Xfs.
From Verif Require Import S_Avl S_Codec S_Table S_Read S_Img S_Dev S_Trie S_Xfs.
From Verif Require Import P_Vm.
From Verif Require Import P_Base P_More P_Xfs P_Repack P_Panic.
From Coq Require Import Init.Byte.
Local Open Scope N_scope.

(** C40, from an image that was produced by packing. The only way in which it can
    fail is that a directory table, built in another order, becomes too large. *)
Theorem c40_repacking_preserves_contents :
  forall m m' t img cp evs, source t -> latin_tree t -> packs m t img -> exact_copier (file_dev img) cp ->
  exists t' img' evs' o, same_tree t t'
   /\ returns (fun fuel => repack fuel m' file_wdev (file_dev img) cp ([], evs)) ((img', evs'), o)
   /\ (o = Ok tt /\ packs m' t' img' /\ readable (file_dev img') t
       \/ o = Err (InvalidFileStructureError TooManyDirectoryEntries)
          /\ exists p cs s, at_path t' p (FDir cs) /\ table_size m' cs s /\ 262144 < s).
Proof. exact c40_lemma. Qed.
Print Assumptions c40_repacking_preserves_contents.

(** C40, from any image whose sector scans show a tree. *)
Theorem c40_repacking_any_scannable_image :
  forall m d v t cp evs, read_volume d = Ok v -> scans d t (v_root v) -> source t -> latin_tree t -> exact_copier d cp ->
  exists img evs' o, returns (fun fuel => repack fuel m file_wdev d cp ([], evs)) ((img, evs'), o)
   /\ (representable m t /\ o = Ok tt /\ packs m t img
       \/ ~ representable m t /\ exists e, o = Err (InvalidFileStructureError e) /\ reason m t e).
Proof. exact repack_lemma. Qed.
Print Assumptions c40_repacking_any_scannable_image.

(** Both copiers of the code are exact. *)
Theorem c40_default_copier : forall d, exact_copier d (default_copier d file_wdev).
Proof. exact default_exact. Qed.
Print Assumptions c40_default_copier.
Theorem c40_std_copier : forall img base, exact_copier (offset_dev (file_dev img) base) (std_copier img base).
Proof. exact std_exact. Qed.
Print Assumptions c40_std_copier.

Definition c40_tree : ftree :=
  FDir [([98], FFile [x41; x42]); ([65], FDir [([122], FFile []); ([121], FDir [])]); ([99], FFile [x43])].
Definition c40_image : list byte := fst (fst (create_xdvdfs_image 10 Debug file_wdev (std_fs c40_tree) ([], []))).
Definition c40_again : list byte * res werr unit :=
  let r := repack 100 Release file_wdev (file_dev c40_image) (default_copier (file_dev c40_image) file_wdev) ([], []) in (fst (fst r), snd r).
Definition c40_rows (img : list byte) : res rerr (list (str * str * option N)) :=
  let* v := read_volume (file_dev img) in let* out := file_tree 100 (file_dev img) (v_root v) in Ok (map entry_row out).

Example c40_source : source c40_tree.
Proof.
  split; [reflexivity|]. split; [|split; [|reflexivity]].
  - unfold proper. repeat (first [apply every_dir_file|apply every_dir_node]; repeat constructor; cbn [map fst snd]);
      intros H; cbn in H; repeat destruct H as [H|H]; try discriminate; auto.
  - repeat (first [apply every_dir_file|apply every_dir_node]; repeat constructor; cbn [snd]); try discriminate.
Qed.
Example c40_packed : snd (create_xdvdfs_image 10 Debug file_wdev (std_fs c40_tree) ([], [])) = Ok tt.
Proof. vm_compute. reflexivity. Qed.
Example c40_repacked :
  snd c40_again = Ok tt
  /\ c40_rows (fst c40_again) = Ok [([], [98], Some 2); ([], [99], Some 1); ([], [65], None); ([47; 65], [122], Some 0); ([47; 65], [121], None)].
Proof. vm_all. Qed.

(** C41, partial: exactly the names with a character from U+0100 on make repacking
    panic. Missing: these names, which refute it below. *)
Theorem c41_names_partial :
  forall m m' t img cp evs, source t -> packs m t img -> exact_copier (file_dev img) cp ->
  (latin_tree t -> exists k, forall fuel, (k <= fuel)%nat -> forall p, snd (repack fuel m' file_wdev (file_dev img) cp ([], evs)) <> Panic p)
  /\ (~ latin_tree t -> exists k, forall fuel, (k <= fuel)%nat -> snd (repack fuel m' file_wdev (file_dev img) cp ([], evs)) = Panic PIndex).
Proof. exact c41_lemma. Qed.
Print Assumptions c41_names_partial.
(** In a subdirectory, too. *)
Example c41_deep :
  let r := create_xdvdfs_image 10 Debug file_wdev (std_fs (FDir [([97], FDir [([0x2026], FDir [])])])) ([], []) in
  snd r = Ok tt
  /\ snd (repack 100 Release file_wdev (file_dev (fst (fst r))) (default_copier (file_dev (fst (fst r))) file_wdev) ([], [])) = Panic PIndex.
Proof. cbv zeta. vm_all. Qed.

(** C41: a file called by the euro sign can be packed, and repacking panics. *)
Theorem c41_repacking_accepts_packed_names_refuted :
  exists t p, source t /\
    let r := create_xdvdfs_image 10 Debug file_wdev (std_fs t) ([], []) in
    snd r = Ok tt /\
    snd (repack 100 Debug file_wdev (file_dev (fst (fst r))) (default_copier (file_dev (fst (fst r))) file_wdev) ([], [])) = Panic p.
Proof.
  exists (FDir [([0x20AC], FFile [x41])]), PIndex. split; [|cbv zeta; vm_all].
  split; [reflexivity|]. split; [|split; [|reflexivity]].
  - unfold proper. repeat (first [apply every_dir_file|apply every_dir_node]; repeat constructor; cbn [map fst snd]);
      intros H; cbn in H; repeat destruct H as [H|H]; try discriminate; auto.
  - repeat (first [apply every_dir_file|apply every_dir_node]; repeat constructor; cbn [snd]); try discriminate.
Qed.
Print Assumptions c41_repacking_accepts_packed_names_refuted.
