(** Model of core read.rs:182-246: lookups that record which entries are read. *)
From Verif Require Import M_Base M_Util M_Layout M_Read.
Local Open Scope N_scope.

(** read.rs:182-205, the loop of [find_dirent]: the offsets at which entries are read (each
    by one call of [read_dirent]), and the result. *)
Fixpoint find_trace (fuel : nat) (d : dev) (r : region) (name : str) (offset : N) : list N * res rerr dentry :=
  match fuel with
  | O => ([], OutOfFuel)
  | S fuel =>
      let next (p : N) :=
        if p =? 0 then ([], Err DoesNotExist)
        else match region_offset r (4 * p) with
             | Ok offset => find_trace fuel d r name offset
             | Err e => ([], Err e)
             | Panic p => ([], Panic p)
             | OutOfFuel => ([], OutOfFuel)
             end in
      let (l, x) :=
        match read_dirent d offset with
        | Ok (Some e) =>
            match cmp_ignore_case_utf8 name (name_str e) with
            | Eq => ([], Ok e)
            | Lt => next (d_left (e_node e))
            | Gt => next (d_right (e_node e))
            end
        | Ok None => ([], Err DoesNotExist)
        | Err e => ([], Err e)
        | Panic p => ([], Panic p)
        | OutOfFuel => ([], OutOfFuel)
        end in
      (offset :: l, x)
  end.
(** read.rs:170-206 [find_dirent]. *)
Definition find_dirent_trace (fuel : nat) (d : dev) (r : region) (name : str) : list N * res rerr dentry :=
  if region_is_empty r then ([], Err DirectoryEmpty)
  else match region_offset r 0 with
       | Ok offset => find_trace fuel d r name offset
       | Err e => ([], Err e)
       | Panic p => ([], Panic p)
       | OutOfFuel => ([], OutOfFuel)
       end.
(** read.rs:222-245, the loop of [walk_path]. *)
Fixpoint segments_trace (fuel : nat) (d : dev) (r : region) (segs : list str) : list N * res rerr dentry :=
  match segs with
  | [] => ([], Panic PUnreachable)
  | s :: segs' =>
      let (l, x) := find_dirent_trace fuel d r s in
      match x with
      | Ok e => match segs' with
                | [] => (l, Ok e)
                | _ => match dirent_table (d_dirent (e_node e)) with
                       | Some t => let (l', x) := segments_trace fuel d t segs' in (l ++ l', x)
                       | None => (l, Err IsNotDirectory)
                       end
                end
      | x => (l, x)
      end
  end.
(** read.rs:208-246 [walk_path]. *)
Definition walk_trace (fuel : nat) (d : dev) (r : region) (path : str) : list N * res rerr dentry :=
  match path with
  | [] => ([], Err NoDirent)
  | _ => if str_eqb path [SLASH] then ([], Err NoDirent)
         else segments_trace fuel d r (split_terminator (trim_start path))
  end.
