(** Property C156: reading on 32-bit platforms (blockdev.rs, layout.rs, read.rs,
    checksum.rs, cmd_read.rs). *)
From Verif Require Import M_Base M_Util M_Layout M_Read M_Check M_Cli M_Narrow.
From Verif Require Import S_Read S_Check.
From Verif Require Import P_Base P_Vm P_Witness P_Src P_Narrow.
From Coq Require Import Init.Byte Strings.String.
From Coq Require Import List.
Local Close Scope string_scope.
Local Open Scope N_scope.

(** C156, partial: whatever is read successfully from an image in memory on a 64-bit
    platform, is read on a 32-bit platform as well, with the same result, in both
    builds. Missing: what fails there should fail here, too. *)
Theorem c156_reads_partial :
  forall img, len img < 2147483648 ->
  (forall v, read_volume (mem_dev img) = Ok v -> read_volume (mem_dev32 img) = Ok v)
  /\ (forall fuel r p e, walk_path fuel (mem_dev img) r p = Ok e -> walk_path fuel (mem_dev32 img) r p = Ok e)
  /\ (forall fuel r l, walk_dirent_tree fuel (mem_dev img) r = Ok l -> walk_dirent_tree fuel (mem_dev32 img) r = Ok l)
  /\ (forall fuel r l, file_tree fuel (mem_dev img) r = Ok l -> file_tree fuel (mem_dev32 img) r = Ok l)
  /\ (forall m fuel r l, r_size r < 4294967296 -> scan_all fuel (mem_dev img) r = Ok l -> scan_all32 m fuel (mem_dev32 img) r = Ok l)
  /\ (forall x b, read_data_all (mem_dev img) x = Ok b -> read_data_all32 (mem_dev32 img) x = Ok b)
  /\ (forall H fuel v h, checksum H fuel (mem_dev img) v = Ok h -> checksum32 H fuel (mem_dev32 img) v = Ok h).
Proof. exact c156_reads. Qed.
Print Assumptions c156_reads_partial.
(** Offsets below 4 GiB are read the same in all cases. *)
Theorem c156_low_offsets :
  forall img o n, o < 4294967296 -> mem_dev32 img o n = mem_dev img o n.
Proof. exact c156_same. Qed.
Print Assumptions c156_low_offsets.
(** The total that the command tree prints is right below 4 GiB; above, a release build
    prints the remainder, ... *)
Theorem c156_total_release :
  forall tree, total32 Release tree = Ok ((fold_left N.add (map tree_size tree) 0) mod 4294967296).
Proof. exact total_release. Qed.
Print Assumptions c156_total_release.
(** ... and a debug build panics. *)
Theorem c156_total_debug :
  forall tree, fold_left N.add (map tree_size tree) 0 < 4294967296 -> total32 Debug tree = Ok (fold_left N.add (map tree_size tree) 0).
Proof. exact total_debug. Qed.
Print Assumptions c156_total_debug.
Theorem c156_total_panic :
  forall tree, 4294967296 <= fold_left N.add (map tree_size tree) 0 -> total32 Debug tree = Panic POverflow.
Proof. exact total_debug_panic. Qed.
Print Assumptions c156_total_panic.

(** An image with the files "a" (2 GiB), "b" (2 GiB) and "c" (1 byte), as far as its
    table says. *)
Definition c156_img : list byte :=
  image_of (record 0 4 40 2147483648 32 [x61] ++ record 0 8 40 2147483648 32 [x62] ++ record 0 0 34 1 32 [x63]) (fill 2048 x2a).
Definition got {A} (r : res rerr (list A)) : list A := match r with Ok l => l | _ => [] end.
Definition c156_list : list (str * dentry) := got (file_tree 9 (mem_dev c156_img) root33).
Example c156_example :
  map (fun x => name_str (snd x)) c156_list = [text "a"; text "b"; text "c"]
  /\ (let* e := walk_path 9 (mem_dev32 c156_img) root33 (text "c") in read_data_all32 (mem_dev32 c156_img) (d_dirent (e_node e))) = Ok [x2a].
Proof. vm_all. Qed.

(** Finding: on a 32-bit platform, `xdvdfs tree` says that these three files have 1 byte
    in total, or panics. *)
Theorem c156_total_refuted :
  exists tree, tree <> [] /\ fold_left N.add (map tree_size tree) 0 = 4294967297 /\ total32 Release tree = Ok 1 /\ total32 Debug tree = Panic POverflow.
Proof. exists c156_list. split; [vm_compute; discriminate|]. vm_all. Qed.
Print Assumptions c156_total_refuted.
(** Finding: reading "a" fails on a 64-bit platform, as the file is not there; on a
    32-bit platform it panics. *)
Theorem c156_capacity_refuted :
  exists img x, read_data_all (file_dev img) x = Err (IOError UnexpectedEof) /\ read_data_all32 (file_dev img) x = Panic POverflow.
Proof. exists c156_img, (mkDdata (mkRegion 40 2147483648) 32 0). vm_all. Qed.
Print Assumptions c156_capacity_refuted.
(** Finding: the position of a file is cut to 32 bits if the image is in memory. A file
    behind the end of the image, which cannot be read on a 64-bit platform, has the
    contents of another part of the image. *)
Theorem c156_wrapped_refuted :
  exists img x, read_data_all (mem_dev img) x = Err (IOError OutOfBounds) /\ read_data_all32 (mem_dev32 img) x = Ok [x2a].
Proof. exists c156_img, (mkDdata (mkRegion (2097152 + 34) 1) 32 0). vm_all. Qed.
Print Assumptions c156_wrapped_refuted.
(** Finding: the end of a directory table at the last sectors overflows: a debug build
    panics, a release build finds no entry. *)
Theorem c156_scan_refuted :
  exists img r, scan_all 9 (mem_dev img) r = Err (IOError OutOfBounds)
    /\ scan_all32 Debug 9 (mem_dev32 img) r = Panic POverflow /\ scan_all32 Release 9 (mem_dev32 img) r = Ok [].
Proof. exists c156_img, (mkRegion (4294967296 - 2097152 + 33) 4294967295). vm_all. Qed.
Print Assumptions c156_scan_refuted.
