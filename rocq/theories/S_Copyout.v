(** Specification vocabulary for copying without duplicated handles (C116, C117). *)
From Verif Require Import M_Base M_Util M_Layout M_Read M_Cli M_Host M_Unpack S_Read S_Unpack.
From Coq Require Import Init.Byte.
Local Open Scope N_scope.

(** Data of the entry is missing from the image file. *)
Definition short (file : list byte) (base : N) (e : dentry) : Prop :=
  is_dir e = false /\ r_size (region_of e) <> 0 /\ len file < base + 2048 * r_sector (region_of e) + r_size (region_of e).

(** No data is missing of the files that the tool lists. *)
Definition all_there (fuel : nat) (file : list byte) : Prop :=
  forall base v tree, offset_wrapper_new (file_dev file) = Ok base -> read_volume (offset_dev (file_dev file) base) = Ok v ->
  file_tree fuel (offset_dev (file_dev file) base) (v_root v) = Ok tree -> Forall (fun x => d_namelen (d_dirent (e_node (snd x))) <> 0 -> ~ short file base (snd x)) tree.

(** The image is neither at the destination nor below it. *)
Definition clear_of (cwd : list str) (dest : str) (ip : list str) : Prop := ~ leads_to (place cwd dest) ip.

(** The user selects the directory with the table [r] of the image. *)
Definition selected (fuel : nat) (file : list byte) (src : str) (base : N) (r : region) : Prop :=
  exists v, offset_wrapper_new (file_dev file) = Ok base /\ read_volume (offset_dev (file_dev file) base) = Ok v
    /\ (src = [47] /\ r = v_root v
        \/ exists e, walk_path fuel (offset_dev (file_dev file) base) (v_root v) src = Ok e /\ is_dir e = true /\ r = region_of e).
(** All names in the selected directory are harmless. *)
Definition selects_harmless (fuel : nat) (file : list byte) (src : str) : Prop :=
  forall base r tree, selected fuel file src base r -> file_tree fuel (offset_dev (file_dev file) base) r = Ok tree -> Forall (fun x => harmless (name_str (snd x))) tree.
