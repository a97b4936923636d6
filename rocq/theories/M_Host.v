(** The host file system of the command line tools: Unix paths, a tree of
    directories and files without links, limits or permissions. Calls may fail
    spontaneously at any point. *)
From Verif Require Import M_Base M_Read.
From Coq Require Import Init.Byte.
Local Open Scope N_scope.

Definition DOT : N := 46.

(** ** Paths as strings (std::path on Unix) *)
Definition is_absolute (s : str) : bool := match s with c :: _ => c =? SLASH | [] => false end.
(** [Path::join]: an absolute path replaces the base. *)
Definition pjoin (a b : str) : str :=
  if is_absolute b then b
  else match rev a with
       | [] => b
       | c :: _ => if c =? SLASH then a ++ b else a ++ [SLASH] ++ b
       end.
Definition is_dot (s : str) : bool := str_eqb s [DOT].
Definition is_dotdot (s : str) : bool := str_eqb s [DOT; DOT].
(** The components that matter to the kernel: empty ones and "." do not. *)
Definition pcomps (s : str) : list str :=
  filter (fun c => negb (match c with [] => true | _ => is_dot c end)) (split_slash s).

(** ** File system *)
Inductive hnode := HDir | HFile (b : list byte).
(** What is found at every absolute path. *)
Definition host : Type := list str -> option hnode.

Fixpoint hpath_eqb (p q : list str) : bool :=
  match p, q with
  | [], [] => true
  | a :: p, b :: q => str_eqb a b && hpath_eqb p q
  | _, _ => false
  end.
Definition hset (h : host) (p : list str) (n : hnode) : host := fun q => if hpath_eqb q p then Some n else h q.

Inductive herr :=
| HNotFound | HNotADirectory | HAlreadyExists | HIsADirectory | HInvalidInput
| HFault      (* spontaneous failure *)
| HRefused    (* the tool refuses the request *)
| HPack.      (* packing failed *)

(** The file system and the amount of work that will be done before calls start to
    fail; [None] if they never do. *)
Record world := mkWorld { w_fs : host; w_left : option N }.
(** Up to [n] units of work: those that can be done. *)
Definition spend (w : world) (n : N) : N :=
  match w_left w with None => n | Some k => N.min k n end.
Definition after (w : world) (h : host) (n : N) : world :=
  mkWorld h (match w_left w with None => None | Some k => Some (k - n) end).

(** Programs on the host. *)
Definition hprog (A : Type) : Type := world -> world * res herr A.
Definition hret {A} (a : A) : hprog A := fun w => (w, Ok a).
Definition hbind {A B} (x : hprog A) (k : A -> hprog B) : hprog B := fun w =>
  match x w with
  | (w, Ok a) => k a w
  | (w, Err e) => (w, Err e)
  | (w, Panic p) => (w, Panic p)
  | (w, OutOfFuel) => (w, OutOfFuel)
  end.

(** Where a path starts: at the root or at the working directory. *)
Definition hstart (cwd : list str) (s : str) : list str := if is_absolute s then [] else cwd.

(** The kernel's walk through directories. *)
Fixpoint hwalk (h : host) (cur : list str) (cs : list str) : res herr (list str) :=
  match cs with
  | [] => Ok cur
  | c :: cs =>
      if is_dotdot c then hwalk h (removelast cur) cs
      else match h (cur ++ [c]) with
           | None => Err HNotFound
           | Some (HFile _) => Err HNotADirectory
           | Some HDir => hwalk h (cur ++ [c]) cs
           end
  end.

Fixpoint split_last (cs : list str) : option (list str * str) :=
  match cs with
  | [] => None
  | [c] => Some ([], c)
  | c :: cs => match split_last cs with Some (i, l) => Some (c :: i, l) | None => None end
  end.

(** The directory and the name that the components denote, or a directory that
    exists for sure. *)
Definition hlocate (h : host) (start : list str) (cs : list str) : res herr (list str * option str) :=
  match split_last cs with
  | None => Ok (start, None)
  | Some (i, c) =>
      let* d := hwalk h start i in
      if is_dotdot c then Ok (removelast d, None) else Ok (d, Some c)
  end.

Definition has_nul (cs : list str) : bool := existsb (existsb (N.eqb 0)) cs.

(** mkdir(2). *)
Definition mkdir (start : list str) (cs : list str) : hprog unit := fun w =>
  if has_nul cs then (w, Err HInvalidInput) else
  match hlocate (w_fs w) start cs with
  | Ok (_, None) => (w, Err HAlreadyExists)
  | Ok (d, Some c) =>
      match w_fs w (d ++ [c]) with
      | Some _ => (w, Err HAlreadyExists)
      | None => if spend w 1 <? 1 then (w, Err HFault) else (after w (hset (w_fs w) (d ++ [c]) HDir) 1, Ok tt)
      end
  | Err e => (w, Err e)
  | Panic p => (w, Panic p)
  | OutOfFuel => (w, OutOfFuel)
  end.
Definition is_dir_at (h : host) (start : list str) (cs : list str) : bool :=
  if has_nul cs then false else
  match hlocate h start cs with
  | Ok (_, None) => true
  | Ok (d, Some c) => match h (d ++ [c]) with Some HDir => true | _ => false end
  | _ => false
  end.

(** std::fs::create_dir and std::fs::create_dir_all; the components are given in
    reverse, so that the parent is the tail. The parent "" of a relative path and
    the parent "/" always exist. *)
Definition create_dir (cwd : list str) (s : str) : hprog unit := fun w =>
  match s with [] => (w, Err HNotFound) | _ => mkdir (hstart cwd s) (pcomps s) w end.
Fixpoint mkdir_all (start : list str) (rcs : list str) : hprog unit := fun w =>
  let again (w : world) :=
    match mkdir start (rev rcs) w with
    | (w, Err e) => if is_dir_at (w_fs w) start (rev rcs) then (w, Ok tt) else (w, Err e)
    | r => r
    end in
  match mkdir start (rev rcs) w with
  | (w, Err HNotFound) =>
      match rcs with
      | [] => (w, Err HNotFound)
      | _ :: rcs' => hbind (mkdir_all start rcs') (fun _ => again) w
      end
  | (w, Err e) => if is_dir_at (w_fs w) start (rev rcs) then (w, Ok tt) else (w, Err e)
  | r => r
  end.
Definition create_dir_all (cwd : list str) (s : str) : hprog unit :=
  match s with [] => hret tt | _ => mkdir_all (hstart cwd s) (rev (pcomps s)) end.

(** open(2) with O_WRONLY, O_CREAT and O_TRUNC: the absolute path of the file. A
    path that ends in a slash, "." or ".." is refused before anything else. *)
Definition dirlike (s : str) : bool :=
  match rev (split_slash s) with c :: _ => match c with [] => true | _ => is_dot c || is_dotdot c end | [] => true end.
Definition open_trunc (cwd : list str) (s : str) : hprog (list str) := fun w =>
  if has_nul (pcomps s) then (w, Err HInvalidInput) else
  match s with
  | [] => (w, Err HNotFound)
  | _ =>
    if dirlike s then (w, Err HIsADirectory) else
    match hlocate (w_fs w) (hstart cwd s) (pcomps s) with
    | Ok (_, None) => (w, Err HIsADirectory)
    | Ok (d, Some c) =>
        match w_fs w (d ++ [c]) with
        | Some HDir => (w, Err HIsADirectory)
        | _ => if spend w 1 <? 1 then (w, Err HFault) else (after w (hset (w_fs w) (d ++ [c]) (HFile [])) 1, Ok (d ++ [c]))
        end
    | Err e => (w, Err e)
    | Panic p => (w, Panic p)
    | OutOfFuel => (w, OutOfFuel)
    end
  end.

(** Writing all bytes to the file just opened; a failing write is torn. *)
Definition write_new (p : list str) (b : list byte) : hprog unit := fun w =>
  let k := spend w (len b) in
  (after w (hset (w_fs w) p (HFile (slice b 0 k))) (len b), if k <? len b then Err HFault else Ok tt).

(** ** Further calls *)
(** [std::fs::canonicalize]: the place of something that exists. *)
Definition canonicalize (h : host) (cwd : list str) (s : str) : res herr (list str) :=
  if has_nul (pcomps s) then Err HInvalidInput else
  match s with
  | [] => Err HNotFound
  | _ =>
    let* (d, c) := hlocate h (hstart cwd s) (pcomps s) in
    match c with
    | None => Ok d
    | Some c =>
        match h (d ++ [c]) with
        | None => Err HNotFound
        | Some HDir => Ok (d ++ [c])
        | Some (HFile _) => if dirlike s then Err HNotADirectory else Ok (d ++ [c])
        end
    end
  end.

(** [std::path::absolute], as components: ".." stays. *)
Definition path_absolute (cwd : list str) (s : str) : res herr (list str) :=
  match s with [] => Err HInvalidInput | _ => Ok (hstart cwd s ++ pcomps s) end.

(** An absolute path as a string. *)
Definition pstr (p : list str) : str := match p with [] => [SLASH] | _ => concat (map (fun n => SLASH :: n) p) end.

Definition hunset (h : host) (p : list str) : host := fun q => if hpath_eqb q p then None else h q.

(** rename(2) of a file within the file system, to a place whose directory exists. *)
Definition rename_file (p q : list str) : hprog unit := fun w =>
  match w_fs w p, w_fs w q with
  | Some (HFile b), Some HDir => (w, Err HIsADirectory)
  | Some (HFile b), _ =>
      if spend w 1 <? 1 then (w, Err HFault)
      else (after w (if hpath_eqb p q then w_fs w else hset (hunset (w_fs w) p) q (HFile b)) 1, Ok tt)
  | _, _ => (w, Err HNotFound)
  end.
(** unlink(2). *)
Definition remove_file (p : list str) : hprog unit := fun w =>
  match w_fs w p with
  | Some (HFile _) => if spend w 1 <? 1 then (w, Err HFault) else (after w (hunset (w_fs w) p) 1, Ok tt)
  | Some HDir => (w, Err HIsADirectory)
  | None => (w, Err HNotFound)
  end.
