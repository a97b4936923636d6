(** Properties C127 and C128: the commands on untrusted images (cmd_read.rs,
    cmd_md5.rs, cmd_info.rs, cmd_unpack.rs). *)
From Verif Require Import M_Base M_Util M_Layout M_Read M_Check M_Cli M_Unpack M_Host.
From Verif Require Import S_Avl S_Codec S_Table S_Read S_Cycle S_Total.
From Verif Require Import P_Vm.
From Verif Require Import P_Base P_Read P_Path P_Witness P_Cycle P_Unpack P_Total.
From Coq Require Import Init.Byte Strings.String.
From Coq Require Import List.
Local Close Scope string_scope.
Local Open Scope N_scope.

(** C127, partial: on no file at all do tree and checksum panic; the others panic at
    most for a path that consists of two slashes or more, and unpack exactly if it has
    no name for its output. Missing: these arguments, ls with the sector scan (see
    C33) and info in a debug build (see C58). *)
Theorem c127_tree_partial : forall fuel name file, ~ panics (snd (cmd_tree fuel name file)).
Proof. exact cmd_tree_np. Qed.
Print Assumptions c127_tree_partial.
Theorem c127_checksum_partial : forall H fuel images, ~ panics (snd (cmd_checksum H fuel images)).
Proof. exact cmd_checksum_np. Qed.
Print Assumptions c127_checksum_partial.
Theorem c127_ls_partial : forall fuel file path, panics (snd (cmd_ls fuel file path false)) -> only_slashes path.
Proof. exact cmd_ls_panics. Qed.
Print Assumptions c127_ls_partial.
Theorem c127_md5_partial : forall H fuel file path, panics (snd (cmd_md5 H fuel file path)) -> exists p, path = Some p /\ only_slashes p.
Proof. exact cmd_md5_panics. Qed.
Print Assumptions c127_md5_partial.
Theorem c127_info_partial : forall fuel file entry, panics (snd (cmd_info Release fuel file entry)) -> exists p, entry = Some p /\ only_slashes p.
Proof. exact cmd_info_panics. Qed.
Print Assumptions c127_info_partial.
Theorem c127_unpack_partial :
  forall fuel cwd image_path file target w, panics (snd (cmd_unpack fuel cwd image_path file target w)) <-> target = None /\ file_name image_path = None.
Proof. exact cmd_unpack_panics. Qed.
Print Assumptions c127_unpack_partial.
Theorem c127_copyout_partial : forall fuel cwd file src dest w, panics (snd (cmd_copyout fuel cwd file src dest w)) -> only_slashes src.
Proof. exact cmd_copyout_panics. Qed.
Print Assumptions c127_copyout_partial.

(** Findings: "//" makes every command with a path panic, on every image; "unpack .."
    panics before it looks at the image. *)
Theorem c127_ls_refuted : exists fuel file path, panics (snd (cmd_ls fuel file path false)).
Proof. exists 5%nat, loop_img, [47; 47], PUnreachable. vm_compute. reflexivity. Qed.
Print Assumptions c127_ls_refuted.
Theorem c127_md5_refuted : exists fuel H file path, panics (snd (cmd_md5 H fuel file (Some path))).
Proof. exists 5%nat, (fun b => b), loop_img, [47; 47], PUnreachable. vm_compute. reflexivity. Qed.
Print Assumptions c127_md5_refuted.
Theorem c127_unpack_refuted : exists image_path, forall fuel cwd file w, cmd_unpack fuel cwd image_path file None w = (w, Panic PUnwrap).
Proof. exists (text ".."). reflexivity. Qed.
Print Assumptions c127_unpack_refuted.
Theorem c127_scan_refuted : exists fuel file path, panics (snd (cmd_ls fuel file path true)).
Proof. exists 9%nat, cross_img, [47], PAssert. vm_compute. reflexivity. Qed.
Print Assumptions c127_scan_refuted.
Example c127_example :
  only_slashes [47; 47] /\ ~ only_slashes [47] /\ ~ only_slashes [47; 47; 97]
  /\ snd (cmd_ls 5 cross_img [47; 47; 97] false) = Err DoesNotExist /\ snd (cmd_info Release 5 cross_img (Some (text "a"))) = Err DoesNotExist
  /\ file_name (text "d/..") = None /\ file_name (text "d/x.iso") = Some (text "x.iso").
Proof.
  split; [exists 0%nat; reflexivity|]. split; [intros [n Q]; discriminate Q|].
  split; [intros [n Q]; destruct n as [|n]; [discriminate Q|injection Q; discriminate]|]. vm_all.
Qed.

(** C128: the commands end on every image whose tables and directories have no cycles;
    for a command with a path it is enough that the search for the path does not run
    in circles, and that what it selects has no cycles. *)
Theorem c128_tree : forall file d root name, S_Total.partition file d root -> ~ cyclic_tree d root -> ends (fun fuel => cmd_tree fuel name file).
Proof. exact (fun file d root name P => tree_ends file d root P name). Qed.
Print Assumptions c128_tree.
Theorem c128_checksum : forall H file d root name, S_Total.partition file d root -> ~ cyclic_tree d root -> ends (fun fuel => checksum_single H fuel name file).
Proof. exact (fun H file d root name P => checksum_ends file d root P H name). Qed.
Print Assumptions c128_checksum.
Theorem c128_md5 : forall H file d root, S_Total.partition file d root -> ~ cyclic_tree d root -> ends (fun fuel => cmd_md5 H fuel file None).
Proof. exact (fun H file d root P => md5_ends file d root P H). Qed.
Print Assumptions c128_md5.
Theorem c128_md5_path :
  forall H file d root path, S_Total.partition file d root -> straight d root path -> (forall r, table_at d root path r -> ~ cyclic_tree d r) ->
  ends (fun fuel => cmd_md5 H fuel file (Some path)).
Proof. exact (fun H file d root path P => md5_path_ends file d root P H path). Qed.
Print Assumptions c128_md5_path.
Theorem c128_ls :
  forall file d root path, S_Total.partition file d root -> straight d root path -> (forall r, table_at d root path r -> ~ cyclic_table d r) ->
  ends (fun fuel => cmd_ls fuel file path false).
Proof. exact (fun file d root path P => ls_ends file d root P path). Qed.
Print Assumptions c128_ls.
Theorem c128_info :
  forall m file d root path, S_Total.partition file d root -> straight d root path -> (forall r, table_at d root path r -> ~ cyclic_table d r) ->
  ends (fun fuel => cmd_info m fuel file (Some path)).
Proof. exact (fun m file d root path P => info_ends file d root P m path). Qed.
Print Assumptions c128_info.
Theorem c128_unpack :
  forall cwd image_path file d root target w, S_Total.partition file d root -> ~ cyclic_tree d root -> ends (fun fuel => cmd_unpack fuel cwd image_path file target w).
Proof. exact (fun cwd ip file d root target w P => unpack_ends file d root P cwd ip target w). Qed.
Print Assumptions c128_unpack.
Theorem c128_copyout :
  forall cwd file d root src dest w, S_Total.partition file d root -> straight d root src -> (forall r, table_at d root src r -> ~ cyclic_tree d r) ->
  ends (fun fuel => cmd_copyout fuel cwd file src dest w).
Proof. exact (fun cwd file d root src dest w P => copyout_ends file d root P cwd src dest w). Qed.
Print Assumptions c128_copyout.

(** [zigzag_img] is an untrusted image without cycles; one of its pointers points
    backwards. *)
Example c128_example :
  S_Total.partition zigzag_img (offset_dev (file_dev zigzag_img) 0) root33 /\ ~ cyclic_tree (offset_dev (file_dev zigzag_img) 0) root33
  /\ cmd_tree 9 (text "i") zigzag_img = ([text "/d (1 bytes)"; text "/e (1 bytes)"; text "/c (1 bytes)"; text "3 files, 3 bytes in i"], Ok tt).
Proof.
  split; [exact zigzag_partition|]. split; [exact zigzag_acyclic|]. vm_compute. reflexivity.
Qed.
(** [loop_img] has a cycle, and tree does not end on it. *)
Example c128_endless : snd (cmd_tree 50 (text "i") loop_img) = OutOfFuel.
Proof. vm_compute. reflexivity. Qed.
