(** Properties C145 and C146: what the bytes of an image depend on
    (write/img.rs, write/dirtab.rs, write/avl.rs, write/sector.rs). *)
From Verif Require Import M_Base M_Util M_Layout M_Avl M_Sector M_Dirtab M_Read M_Img M_Dev M_Xfs.
From Verif Require Import S_Avl S_Codec S_Table S_Read S_Img.
From Verif Require Import P_Base P_Tidy P_Repro.
From Coq Require Import Init.Byte.
From Coq Require Import List.
Local Open Scope N_scope.

(** C145: on every device and for every file system, a debug build panics because of
    an overflow, or does the very same as a release build: result, reports and device. *)
Theorem c145_builds_agree : forall D fuel (W : wdev D) fs s,
  snd (create_xdvdfs_image fuel Debug W fs s) = Panic POverflow
  \/ create_xdvdfs_image fuel Debug W fs s = create_xdvdfs_image fuel Release W fs s.
Proof. exact c145_lemma. Qed.
Print Assumptions c145_builds_agree.
(** For trees whose files fit, the first never happens. *)
Theorem c145_same_packs : forall m m' t img, source t -> packs m t img -> packs m' t img.
Proof. exact packs_other. Qed.
Print Assumptions c145_same_packs.
Example c145_example : packs Release (four [99; 98; 100; 97]) (four_img [99; 98; 100; 97]).
Proof. destruct four_cbda as (H & K & _). apply (c145_same_packs Debug); assumption. Qed.

(** C146, partial: with the same order of listing, the bytes are the same, whatever
    the file system, its reports, and the build. *)
Theorem c146_same_image_partial : forall m m' t img img', source t -> packs m t img -> packs m' t img' -> img = img'.
Proof. exact c146_lemma. Qed.
Print Assumptions c146_same_image_partial.
(** C146, refuted: the same directory listed in another order gives another image. *)
Theorem c146_order_refuted : exists t t' img img', source t /\ source t' /\ same_tree t t' /\ packs Debug t img /\ packs Debug t' img' /\ img <> img'.
Proof. exact c146_order. Qed.
Print Assumptions c146_order_refuted.
(** C146, refuted: packing an image that was made by this library, again, gives another image. *)
Theorem c146_again_refuted : exists t img img' evs, source t /\ packs Debug t img
  /\ repack 100 Debug file_wdev (file_dev img) (default_copier (file_dev img) file_wdev) ([], []) = ((img', evs), Ok tt) /\ img <> img'.
Proof. exact c146_again. Qed.
Print Assumptions c146_again_refuted.
Example c146_example : source (four [99; 98; 100; 97]) /\ packs Debug (four [99; 98; 100; 97]) (four_img [99; 98; 100; 97]) /\ first_name (four_img [99; 98; 100; 97]) = [x63].
Proof. exact four_cbda. Qed.
