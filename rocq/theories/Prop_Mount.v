(** Properties C112-C115: mounting (xdvdfs-fsd main.rs, daemonize.rs). [can_fork] and
    [kernel] are what the system allows: whether a process can be forked, and which
    options it mounts with. *)
From Verif Require Import M_Base M_Util M_Layout M_Read M_Img M_Check M_Remap M_Cli M_Unpack M_Exiso M_Fuse M_Host M_Build M_Mount.
From Verif Require Import S_Avl S_Codec S_Read S_Img S_Check S_Cli S_Fuse S_Unpack S_Exiso S_Mount.
From Verif Require Import P_Vm.
From Verif Require Import P_Base P_Witness P_More P_Src P_Fuse P_Mount.
From Coq Require Import Init.Byte Strings.String.
From Coq Require Import List.
Local Close Scope string_scope.
Local Open Scope N_scope.

(** C112: the mount options are those that are given, in their order, and by default
    the source and the type of the file system; the program stays in the foreground iff
    the last of fork and nofork says so; anything unknown is an error. *)
Theorem c112_options :
  forall src opts ps, listed opts ps ->
  match convert_opts src opts with
  | Ok (fork, l) => exists given, mount_options ps given /\ with_defaults src given l /\ (fork = false <-> foreground ps)
  | Err _ => exists p, In p ps /\ ~ known p
  | _ => False
  end.
Proof. exact c112_lemma. Qed.
Print Assumptions c112_options.
Example c112_example :
  listed [text "nofork,ro"; text "fsname=a"] [text "nofork"; text "ro"; text "fsname=a"]
  /\ convert_opts (text "/i") [text "nofork,ro"; text "fsname=a"] = Ok (false, [RO; FSName (text "a"); Subtype (text "xdvdfs")])
  /\ convert_opts (text "/i") [] = Ok (true, [FSName (text "/i"); Subtype (text "xdvdfs")])
  /\ convert_opts (text "/i") [text "nofork,fork"] = Ok (true, [FSName (text "/i"); Subtype (text "xdvdfs")])
  /\ convert_opts (text "/i") [text "ro,"] = Err HRefused /\ convert_opts (text "/i") [text "noatime"] = Err HRefused.
Proof.
  split; [|vm_all]. exists [[text "nofork"; text "ro"]; [text "fsname=a"]]. split; [|reflexivity].
  repeat constructor; try discriminate; cbn; intros H; repeat (destruct H as [H|H]; [discriminate|]); contradiction.
Qed.

(** C113, partial: with nofork, the exit status is 0 iff the image was mounted, which
    happens iff the file is an image and the system mounts it. Missing: see the
    finding; the status after a fork says nothing. *)
Theorem c113_status_partial :
  forall can_fork kernel src file opts l, convert_opts src opts = Ok (false, l) ->
  (exit_status (mount_image_file can_fork kernel src file opts) = 0 <-> mounted_with (mount_image_file can_fork kernel src file opts) = Some l)
  /\ (mounted_with (mount_image_file can_fork kernel src file opts) = Some l <-> (exists fs, mount_new file = Ok fs) /\ kernel l = true).
Proof. exact c113_front. Qed.
Print Assumptions c113_status_partial.
Theorem c113_forked_partial :
  forall kernel src file opts l, convert_opts src opts = Ok (true, l) ->
  exit_status (mount_image_file true kernel src file opts) = 0
  /\ (mounted_with (mount_image_file true kernel src file opts) = Some l <-> (exists fs, mount_new file = Ok fs) /\ kernel l = true).
Proof. exact c113_back. Qed.
Print Assumptions c113_forked_partial.

(** An image with a file of 2048 bytes. *)
Definition c113_tree : ftree := FDir [(text "f", FFile (fill 2048 x01))].
Definition c113_img : list byte := fst (fst (create_xdvdfs_image 10 Debug file_wdev (std_fs c113_tree) ([], []))).
Definition c113_host (file : list byte) : host :=
  hset (fun q => match q with [] => Some HDir | [n] => if str_eqb n (text "mnt") then Some HDir else None | _ => None end) [text "i"] (HFile file).
Example c113_case :
  run_mount true (fun _ => true) (c113_host c113_img) [] (text "i") (text "mnt") [text "nofork"] = mkRan 0 (Some [FSName (text "/i"); Subtype (text "xdvdfs")])
  /\ run_mount true (fun _ => true) (c113_host c113_img) [] (text "i") (text "mnt") [] = mkRan 0 (Some [FSName (text "/i"); Subtype (text "xdvdfs")])
  /\ run_mount true (fun _ => true) (c113_host [x31]) [] (text "i") (text "mnt") [text "nofork"] = failed
  /\ run_mount true (fun _ => true) (c113_host c113_img) [] (text "i") (text "i") [] = failed
  /\ run_mount true (fun _ => true) (c113_host c113_img) [] (text "j") (text "mnt") [] = failed.
Proof. vm_all. Qed.
(** Finding: without nofork, the program reports success for a file that is no image. *)
Theorem c113_status_refuted :
  exists h cwd source mount_point p file, canonicalize h cwd source = Ok p /\ h p = Some (HFile file) /\ (forall fs, mount_new file <> Ok fs)
    /\ exit_status (run_mount true (fun _ => true) h cwd source mount_point []) = 0 /\ mounted_with (run_mount true (fun _ => true) h cwd source mount_point []) = None.
Proof.
  exists (c113_host [x31]), [], (text "i"), (text "mnt"), [text "i"], [x31]. ssplit; try (vm_compute; reflexivity). intros fs. vm_compute. discriminate.
Qed.
Print Assumptions c113_status_refuted.

(** C114, partial: the program ends without a panic (exit status 101) unless the source
    is a directory. *)
Theorem c114_no_panic_partial :
  forall can_fork kernel h cwd source mp opts, exit_status (run_mount can_fork kernel h cwd source mp opts) <> 101
  \/ exists p q, canonicalize h cwd mp = Ok q /\ h q = Some HDir /\ canonicalize h cwd source = Ok p /\ h p = Some HDir.
Proof. exact c114_lemma. Qed.
Print Assumptions c114_no_panic_partial.
(** Finding: for a directory it panics. *)
Theorem c114_directory_refuted :
  exists h cwd source mp, forall can_fork kernel opts, exit_status (run_mount can_fork kernel h cwd source mp opts) = 101.
Proof. exists (c113_host []), [], (text "."), (text "mnt"). intros can_fork kernel opts. vm_compute. reflexivity. Qed.
Print Assumptions c114_directory_refuted.

(** C115, partial: no entry is writable; the blocks of [attr_blksize] bytes are just
    enough for the size. Missing: see the findings. The unit of POSIX is enough only for
    entries of at most 512 bytes, and no directory can be searched under
    default_permissions, except by root. *)
Theorem c115_attributes_partial :
  forall fs ino a, fuse_getattr fs ino = Ok a ->
  ~ may_write a /\ a_size a <= attr_blksize a * a_blocks a /\ attr_blksize a * a_blocks a < a_size a + attr_blksize a /\ (enough_blocks a <-> a_size a <= 512)
  /\ (forall opts, may_search opts false a <-> ~ In DefaultPermissions opts).
Proof. exact c115_lemma. Qed.
Print Assumptions c115_attributes_partial.
Example c115_case :
  fuse_getattr (fresh c113_img) 1 = Ok (mkAttr 1 16 1 true)
  /\ snd (fuse_lookup 20 (fresh c113_img) 1 (text "f")) = Ok (mkAttr 2 2048 1 false).
Proof. vm_all. Qed.
(** Finding: a file of 2048 bytes has one block of 512 bytes. *)
Theorem c115_blocks_refuted :
  exists img fs fs' ino a, mounted img fs /\ fuse_lookup 20 fs 1 (text "f") = (fs', Ok a) /\ a_ino a = ino /\ fuse_getattr fs' ino = Ok a /\ a_dir a = false /\ ~ enough_blocks a.
Proof.
  exists c113_img, (fresh c113_img), (after_lookup (fresh c113_img) 1 (text "f")), 2, (mkAttr 2 2048 1 false).
  split; [apply fresh_mounted; vm_compute; reflexivity|]. split; [apply run_lookup; vm_compute; reflexivity|]. ssplit; try (vm_compute; reflexivity). intros X. vm_compute in X. apply X. reflexivity.
Qed.
Print Assumptions c115_blocks_refuted.
(** Finding: under default_permissions, which is accepted, only root can open anything;
    and a file that exists has no link. *)
Theorem c115_search_refuted :
  exists src opts fork l img fs a, convert_opts src opts = Ok (fork, l) /\ mounted img fs /\ fuse_getattr fs 1 = Ok a /\ a_dir a = true /\ ~ may_search l false a /\ attr_nlink a = 0.
Proof.
  exists (text "/i"), [text "default_permissions"], true, [DefaultPermissions; FSName (text "/i"); Subtype (text "xdvdfs")], c113_img, (fresh c113_img), (mkAttr 1 16 1 true).
  split; [vm_compute; reflexivity|]. split; [apply fresh_mounted; vm_compute; reflexivity|]. ssplit; try (vm_compute; reflexivity).
  intros X. destruct X as [X|X]; [left; reflexivity|discriminate|vm_compute in X; discriminate].
Qed.
Print Assumptions c115_search_refuted.
