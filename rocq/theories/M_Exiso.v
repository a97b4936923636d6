(** Model of the paths and files handled by xdvdfs-cli cmd_pack.rs, img.rs:79-107
    and exiso_compat.rs. What packing puts into the output file is given by a
    [packer], so that it may also fail or stop half-way. Absolute paths are lists
    of components; all paths that are compared or changed here are absolute. *)
From Verif Require Import M_Base M_Util M_Layout M_Read M_Img M_Dev M_Xfs M_Remap M_Cli M_Host M_Unpack.
From Coq Require Import Init.Byte.
Local Open Scope N_scope.

(** ** Extensions *)
(** [Path::with_extension] on a file name, for a non-empty extension. *)
Definition name_with_ext (n ext : str) : str := file_stem n ++ [DOT] ++ ext.
(** img.rs:93-107 [with_extension] on a file name: a directory's own extension becomes
    part of the new one, so that its whole name stays. *)
Definition with_extension (n ext : str) (is_dir : bool) : str :=
  if is_dir then n ++ [DOT] ++ ext else name_with_ext n ext.
(** ... on an absolute path; the root has no file name. *)
Definition change_last (f : str -> str) (p : list str) : list str :=
  match split_last p with Some (i, n) => if is_dotdot n then p else i ++ [f n] | None => p end.
(** [Path::with_file_name]. *)
Definition with_file_name (p : list str) (n : str) : list str :=
  match split_last p with Some (i, c) => if is_dotdot c then p ++ [n] else i ++ [n] | None => [n] end.
(** [Path::starts_with]. *)
Fixpoint starts_with (p q : list str) {struct q} : bool :=
  match q with
  | [] => true
  | b :: q => match p with a :: p => str_eqb a b && starts_with p q | [] => false end
  end.

(** img.rs:83-88 [absolute_path]. *)
Definition absolute_path (h : host) (cwd : list str) (s : str) : res herr (list str) :=
  match canonicalize h cwd s with Ok p => Ok p | _ => path_absolute cwd s end.
Definition exists_at (h : host) (cwd : list str) (s : str) : bool :=
  match canonicalize h cwd s with Ok _ => true | _ => false end.

(** [absolute_path] followed by [std::fs::metadata] of the result: if the path cannot
    be canonicalized then its absolute form has no metadata either. *)
Definition existing (h : host) (cwd : list str) (s : str) : res herr (list str * hnode) :=
  let* p := canonicalize h cwd s in
  let* n := ok_or (h p) HNotFound in
  Ok (p, n).

(** ** cmd_pack.rs *)
(** What packing the source at a place leaves in the output file. *)
Definition packer : Type := host -> list str -> list byte * res herr unit.

Definition hres {A} (f : world -> res herr A) : hprog A := fun w => (w, f w).

(** cmd_pack.rs:54-103 [cmd_pack_path]. *)
Definition cmd_pack_path (cwd : list str) (pk : packer) (source : list str) (image : str) : hprog unit :=
  hbind (hres (fun w => ok_or (w_fs w source) HNotFound)) (fun _ =>
  hbind (hres (fun w => if exists_at (w_fs w) cwd image
                        then let* p := absolute_path (w_fs w) cwd image in if hpath_eqb p source then Err HRefused else Ok tt
                        else Ok tt)) (fun _ =>
  hbind (hres (fun w => let* p := absolute_path (w_fs w) cwd image in if starts_with p source then Err HRefused else Ok tt)) (fun _ =>
  hbind (open_trunc cwd image) (fun p w =>
  let (b, r) := pk (w_fs w) source in (after w (hset (w_fs w) p (HFile b)) 0, r))))).

Definition is_hdir (n : hnode) : bool := match n with HDir => true | HFile _ => false end.

(** cmd_pack.rs:20-35 [get_default_image_path]. *)
Definition default_image_path (h : host) (cwd : list str) (source : list str) (is_dir : bool) : res herr str :=
  let* n := ok_or (match split_last source with Some (_, n) => if is_dotdot n then None else Some n | None => None end) HRefused in
  let output := with_extension n [105; 115; 111] is_dir in
  if exists_at h cwd output
  then let* p := absolute_path h cwd output in
       if hpath_eqb p source then Ok (with_extension n [120; 105; 115; 111; 46; 105; 115; 111] is_dir) else Ok output
  else Ok output.

(** cmd_pack.rs:38-51 [cmd_pack]. *)
Definition cmd_pack (cwd : list str) (pk : packer) (source : str) (image : option str) : hprog unit :=
  hbind (hres (fun w => existing (w_fs w) cwd source)) (fun '(p, n) =>
  hbind (hres (fun w => match image with Some i => Ok i | None => default_image_path (w_fs w) cwd p (is_hdir n) end)) (fun i =>
  cmd_pack_path cwd pk p i)).

(** ** exiso_compat.rs *)
(** exiso_compat.rs:88-91: the image of a directory. *)
Definition create_target (dir : list str) (file : option str) : str :=
  match file with Some f => f | None => pstr (change_last (fun n => name_with_ext n [105; 115; 111]) dir) end.
(** exiso_compat.rs:81-95 [exiso_create_single]. *)
Definition exiso_create_single (cwd : list str) (pk : packer) (dir : str) (file : option str) : hprog unit :=
  hbind (hres (fun w => existing (w_fs w) cwd dir)) (fun '(p, n) =>
  if is_hdir n then cmd_pack_path cwd pk p (create_target p file) else hres (fun _ => Err HRefused)).

(** exiso_compat.rs:102-125: the arguments after the first directory and file. *)
Definition DASH_C : str := [45; 99].
Fixpoint create_args (rest : list str) : res herr (list (str * option str)) :=
  match rest with
  | [] => Ok []
  | c :: rest' =>
      if negb (str_eqb c DASH_C) then Err HRefused
      else match rest' with
           | [] => Err HRefused
           | dir :: rest'' =>
               (* the position advances by two in both cases *)
               let* tasks := create_args rest'' in
               Ok (match rest'' with
                   | f :: _ => if str_eqb f DASH_C then (dir, None) else (dir, Some f)
                   | [] => (dir, None)
                   end :: tasks)
           end
  end.
Fixpoint create_all (cwd : list str) (pk : packer) (tasks : list (str * option str)) : hprog unit :=
  match tasks with
  | [] => hret tt
  | (dir, file) :: tasks => hbind (exiso_create_single cwd pk dir file) (fun _ => create_all cwd pk tasks)
  end.
(** exiso_compat.rs:98-132 [exiso_create]. *)
Definition exiso_create (cwd : list str) (pk : packer) (dir : str) (file : option str) (rest : list str) : hprog unit :=
  hbind (hres (fun _ => create_args rest)) (fun tasks => create_all cwd pk ((dir, file) :: tasks)).

Definition OLD : str := [111; 108; 100].
(** exiso_compat.rs:170-192, one image. *)
Definition repack_one (cwd : list str) (pk : packer) (directory : option str) (delete : bool) (xiso : str) : hprog unit :=
  hbind (hres (fun w => existing (w_fs w) cwd xiso)) (fun '(source, n) =>
  if is_hdir n then hres (fun _ => Err HRefused) else
  let renamed := change_last (fun n => name_with_ext n OLD) source in
  hbind (rename_file source renamed) (fun _ =>
  hbind (hres (fun w => match directory with
                        | Some d => let* p := absolute_path (w_fs w) cwd d in
                                    let* n := unwrap (match split_last source with Some (_, n) => if is_dotdot n then None else Some n | None => None end) in
                                    Ok (with_file_name p n)
                        | None => Ok source
                        end)) (fun dest =>
  hbind (cmd_pack_path cwd pk renamed (pstr dest)) (fun _ =>
  if delete then remove_file renamed else hret tt)))).
(** exiso_compat.rs:162-196 [exiso_repack]. *)
Fixpoint exiso_repack (cwd : list str) (pk : packer) (directory : option str) (delete : bool) (xisos : list str) : hprog unit :=
  match xisos with
  | [] => hret tt
  | x :: xs => hbind (repack_one cwd pk directory delete x) (fun _ => exiso_repack cwd pk directory delete xs)
  end.

(** ** Packing from an image file (cmd_pack.rs:71-97) *)
Definition pack_result {S} (x : S * res werr unit) : S * res herr unit :=
  (fst x, match snd x with Ok _ => Ok tt | Err _ => Err HPack | Panic p => Panic p | OutOfFuel => OutOfFuel end).
(** ... to a file that takes all writes; directories are not handled here. *)
Definition image_packer (fuel : nat) (m : build) : packer := fun h source =>
  match h source with
  | Some (HFile file) =>
      match offset_wrapper_new (file_dev file) with
      | Ok base =>
          let '((img, _), r) := repack fuel m file_wdev (offset_dev (file_dev file) base) (std_copier file base) ([], []) in
          pack_result (img, r)
      | _ => ([], Err HPack)
      end
  | _ => ([], Err HPack)
  end.
(** ... through a buffered writer, which is dropped at the end; [out] says what
    the output file then holds. *)
Definition buffered_packer {S} (R : raw S) (cap : N) (split : list byte -> list piece) (s0 : S) (out : S -> list byte) (fuel : nat) (m : build)
    : packer := fun h source =>
  match h source with
  | Some (HFile file) =>
      match offset_wrapper_new (file_dev file) with
      | Ok base =>
          let cp := fun off_in off_out size w =>
            let (w, r) := bw_copy R cap split file w (base + off_in) off_out size in
            (w, match r with Ok n => Ok n | Err e => Err (BlockDevWriteErr e) | Panic p => Panic p | OutOfFuel => OutOfFuel end) in
          let '((w, _), r) := repack fuel m (bufw_wdev R cap) (offset_dev (file_dev file) base) cp (bw_new s0, []) in
          pack_result (out (bw_drop R w), r)
      | _ => ([], Err HPack)
      end
  | _ => ([], Err HPack)
  end.
