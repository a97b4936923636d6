(** Specification vocabulary for the names that cannot lead out of the destination when
    an image is unpacked (C47, C136). *)
From Verif Require Import M_Base M_Util M_Layout M_Read M_Img M_Cli M_Host M_Unpack S_Read S_Img S_Cli S_Unpack.
From Coq Require Import Init.Byte.
Local Open Scope N_scope.

(** The name ".." itself is contained, because neither a directory nor a file can be
    created under it. All names without a slash are contained. *)
Definition contained (n : str) : Prop := harmless n \/ n = [46; 46].

(** All names in the image, as far as the tool can list them. *)
Definition lists_names (P : str -> Prop) (fuel : nat) (file : list byte) : Prop :=
  forall d v tree, open_image file = Ok d -> read_volume d = Ok v -> file_tree fuel d (v_root v) = Ok tree ->
  Forall (fun x => P (name_str (snd x))) tree.
