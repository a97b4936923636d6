(** Model of what unpack and copy-out of a directory print (cmd_unpack.rs:13-100): a
    line for each entry before it is extracted. The warnings on standard error are not
    modelled. *)
From Verif Require Import M_Base M_Util M_Layout M_Read M_Img M_Cli M_Host M_Unpack.
From Coq Require Import Init.Byte Strings.String.
From Coq Require Import List.
Local Close Scope string_scope.
Local Open Scope N_scope.

(** cmd_unpack.rs:21-25: the path of an entry on the host. *)
Definition entry_path (dest : str) (x : str * dentry) : str := pjoin (pjoin dest (trim_start (fst x))) (name_str (snd x)).
(** cmd_unpack.rs:27-31. *)
Definition extract_line (dest : str) (x : str * dentry) : str :=
  text "Extracting " ++ (if is_directory (d_dirent (e_node (snd x))) then text "directory" else text "file") ++ text " " ++ entry_path dest x.

(** cmd_unpack.rs:20-68, the loop of [copyout_directory], with the lines so far; what it
    does for one entry is as in [copyout_loop]. *)
Fixpoint loud_loop (cwd : list str) (file : list byte) (base : N) (dest : str) (tree : list (str * dentry)) (w : world) (out : list str)
  : (world * list str) * res herr unit :=
  match tree with
  | [] => ((w, out), Ok tt)
  | (dir, e) :: tree =>
      let dirname := pjoin dest (trim_start dir) in
      let file_path := pjoin dirname (name_str e) in
      let out := out ++ [extract_line dest (dir, e)] in
      match create_dir_all cwd dirname w with
      | (w, Ok _) =>
          match (if is_directory (d_dirent (e_node e)) then create_dir cwd file_path
                 else if d_namelen (d_dirent (e_node e)) =? 0 then hret tt
                 else copy_file cwd file base file_path (d_region (d_dirent (e_node e)))) w with
          | (w, Ok _) => loud_loop cwd file base dest tree w out
          | (w, r) => ((w, out), r)
          end
      | (w, Err e) => ((w, out), Err e)
      | (w, Panic p) => ((w, out), Panic p)
      | (w, OutOfFuel) => ((w, out), OutOfFuel)
      end
  end.
(** cmd_unpack.rs:84-100 [cmd_unpack]. *)
Definition loud_unpack (fuel : nat) (cwd : list str) (image_path : str) (file : list byte) (target : option str) (w : world)
  : (world * list str) * res uerr unit :=
  match (let* dest := unpack_target image_path target in
         let* base := map_err URead (offset_wrapper_new (file_dev file)) in
         let* v := map_err URead (read_volume (offset_dev (file_dev file) base)) in
         let* tree := map_err URead (file_tree fuel (offset_dev (file_dev file) base) (v_root v)) in
         Ok (dest, base, tree)) with
  | Ok (dest, base, tree) => let (x, r) := loud_loop cwd file base dest tree w [] in (x, map_err UHost r)
  | Err e => ((w, []), Err e)
  | Panic p => ((w, []), Panic p)
  | OutOfFuel => ((w, []), OutOfFuel)
  end.
