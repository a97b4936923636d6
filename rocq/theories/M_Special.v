(** Model of write/fs/stdfs.rs on directories of a real host, with everything that
    they can contain. *)
From Verif Require Import M_Base M_Util M_Layout M_Read M_Img.
From Coq Require Import Init.Byte.
Local Open Scope N_scope.

(** What a directory of the host contains: files, files that cannot be opened,
    directories, directories that cannot be listed, and everything else (symbolic
    links, which [DirEntry::metadata] does not follow, devices, sockets, pipes). A
    name that is not UTF-8 is [None]. *)
Inductive raw :=
| RFile (content : list byte)
| RSealed (size : N)
| RDir (children : list (option str * raw))
| RLocked
| ROther.

Definition is_name (s : str) (n : option str) : bool := match n with Some n => str_eqb s n | None => false end.
Fixpoint lookup_raw (p : path) (t : raw) : option raw :=
  match p with
  | [] => Some t
  | s :: p =>
      match t with
      | RDir cs => match find (fun c => is_name s (fst c)) cs with
                   | Some (_, t') => lookup_raw p t'
                   | None => None
                   end
      | _ => None
      end
  end.

Definition UNSUPPORTED : ioerr := IoOther 95.
Definition PERMISSION_DENIED : ioerr := IoOther 13.
(** stdfs.rs:39-60: the type is checked before the name. *)
Definition raw_entry (c : option str * raw) : res ioerr fentry :=
  let* (ty, n) := match snd c with
                  | RDir _ | RLocked => Ok (TDirectory, 0)
                  | RFile b => Ok (TFile, len b)
                  | RSealed n => Ok (TFile, n)
                  | ROther => Err UNSUPPORTED
                  end in
  let* name := ok_or (fst c) UNSUPPORTED in
  Ok (mkFentry name ty n).
(** stdfs.rs:31-68 [read_dir]. *)
Definition raw_read_dir (t : raw) (p : path) : res ioerr (list fentry) :=
  match lookup_raw p t with
  | Some (RDir cs) => mapM raw_entry cs
  | Some RLocked => Err PERMISSION_DENIED
  | Some _ => Err NOT_A_DIRECTORY
  | None => Err NOT_FOUND
  end.
(** stdfs.rs:83-102 [copy_file_in] into a file, see [std_copy_file]. *)
Definition raw_copy_file (t : raw) (p : path) (dest : list byte) (input output size : N) : list byte * res ioerr N :=
  match lookup_raw p t with
  | Some (RFile b) => let bytes := slice b input size in (file_write dest output bytes, Ok (len bytes))
  | Some (RSealed _) => (dest, Err PERMISSION_DENIED)
  | Some (RDir _) | Some RLocked => (dest, Err IS_A_DIRECTORY)
  | Some ROther => (dest, Err UNSUPPORTED)
  | None => (dest, Err NOT_FOUND)
  end.
Definition raw_fs (t : raw) : fsys (list byte) := mkFsys _ (raw_read_dir t) (raw_copy_file t).
