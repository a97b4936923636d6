(** Model of the paths and files handled by xdvdfs-cli cmd_compress.rs, and of the
    files that img.rs opens for a compressed image. The crate ciso is a parameter:
    [cp] stands for packing and writing the compressed files (cmd_compress.rs:78-131). *)
From Verif Require Import M_Base M_Util M_Layout M_Read M_Img M_Dev M_Xfs M_Remap M_Cli M_Unpack M_Exiso M_Host.
From Coq Require Import Init.Byte.
Local Open Scope N_scope.

(** The components by which std::path compares paths: "." counts at the beginning of a
    relative path, and ".." always does. *)
Inductive pcomp := PRoot | PCur | PName (n : str).
Definition path_comps (s : str) : list pcomp :=
  (if is_absolute s then [PRoot]
   else match split_slash s with c :: _ => if is_dot c then [PCur] else [] | [] => [] end) ++ map PName (pcomps s).
Definition pcomp_eqb (a b : pcomp) : bool :=
  match a, b with
  | PRoot, PRoot | PCur, PCur => true
  | PName m, PName n => str_eqb m n
  | _, _ => false
  end.
(** [Path::starts_with] and [==]. *)
Fixpoint comps_start_with (p q : list pcomp) {struct q} : bool :=
  match q with
  | [] => true
  | b :: q => match p with a :: p => pcomp_eqb a b && comps_start_with p q | [] => false end
  end.
Definition comps_eqb (p q : list pcomp) : bool := comps_start_with p q && comps_start_with q p.

Definition CSO : str := [99; 115; 111].

(** cmd_compress.rs:46-51 [get_default_image_path]. *)
Definition default_cso_path (source : str) (is_dir : bool) : option str :=
  match file_name source with Some n => Some (with_extension n CSO is_dir) | None => None end.

(** cmd_compress.rs:54-131 [cmd_compress]. The source is neither made absolute nor
    resolved. *)
Definition cmd_compress (cwd : list str) (cp : str -> list str -> hprog unit) (source : str) (image : option str) : hprog unit :=
  hbind (hres (fun w => existing (w_fs w) cwd source)) (fun '(p, n) =>
  hbind (hres (fun _ => match image with Some i => Ok i | None => unwrap (default_cso_path source (is_hdir n)) end)) (fun i =>
  hbind (hres (fun w => if exists_at (w_fs w) cwd i
                        then let* a := absolute_path (w_fs w) cwd i in
                             if comps_eqb (path_comps (pstr a)) (path_comps source) then Err HRefused else Ok tt
                        else Ok tt)) (fun _ =>
  if comps_start_with (path_comps i) (path_comps source) then hres (fun _ => Err HRefused) else cp i p))).

(** [Path::extension] of a file name. *)
Fixpoint last_ext (s : str) : option str :=
  match s with
  | [] => None
  | c :: s => match last_ext s with Some e => Some e | None => if c =? DOT then Some s else None end
  end.
Definition name_ext (n : str) : option str :=
  match last_ext n with Some e => if str_eqb n (DOT :: e) then None else Some e | None => None end.

(** img.rs:40-63 [open_image]: the files that are opened, in order. The path is given
    by its directory and its file name; [fuel] bounds the number of parts. *)
Inductive opened := Plain (p : list str) | Compressed (ps : list (list str)).
Fixpoint cso_parts (fuel : nat) (h : host) (dir : list str) (base : str) (i : N) : res herr (list (list str)) :=
  match fuel with
  | O => OutOfFuel
  | S fuel =>
      let part := dir ++ [name_with_ext base (decimal i ++ [DOT] ++ CSO)] in
      match h part with
      | None => Ok []
      | Some _ => let* ps := cso_parts fuel h dir base (i + 1) in Ok (part :: ps)
      end
  end.
Definition open_image_files (fuel : nat) (h : host) (dir : list str) (n : str) : res herr opened :=
  if match name_ext n with Some e => str_eqb e CSO | None => false end
  then let base := file_stem n in
       if match name_ext base with Some e => str_eqb e [49] | None => false end
       then let* ps := cso_parts fuel h dir base 1 in
            match ps with [] => Err HNotFound | _ => Ok (Compressed ps) end
       else match h (dir ++ [n]) with Some _ => Ok (Compressed [dir ++ [n]]) | None => Err HNotFound end
  else match h (dir ++ [n]) with Some _ => Ok (Plain (dir ++ [n])) | None => Err HNotFound end.
