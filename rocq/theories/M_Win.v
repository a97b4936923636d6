(** The paths that unpacking uses on Windows: [Path::join] of std::path for Windows, and
    the place that Windows finds for a path. Paths that begin with two separators
    (UNC, device and verbatim paths) are not taken apart. *)
From Verif Require Import M_Base M_Util M_Layout M_Read.
From Coq Require Import Init.Byte.
Local Open Scope N_scope.

Definition is_wsep (c : N) : bool := (c =? 47) || (c =? 92).
Definition is_letter (c : N) : bool := ((65 <=? c) && (c <=? 90)) || ((97 <=? c) && (c <=? 122)).
Definition big_letter (c : N) : N := if 97 <=? c then c - 32 else c.

(** What a path begins with: std::path::Prefix. *)
Inductive wprefix := NoPrefix | Disk (c : N) | Net.
Definition prefix_of (s : str) : wprefix :=
  match s with
  | a :: b :: _ => if is_wsep a && is_wsep b then Net else if is_letter a && (b =? 58) then Disk (big_letter a) else NoPrefix
  | _ => NoPrefix
  end.
(** The path behind its prefix. *)
Definition behind (s : str) : str := match prefix_of s with Disk _ => skipn 2 s | _ => s end.
Definition starts_sep (s : str) : bool := match s with c :: _ => is_wsep c | [] => false end.
Definition ends_sep (s : str) : bool := starts_sep (rev s).

(** [PathBuf::push] and [Path::join] (library/std/src/path.rs [_push]) unless the first
    path begins with two separators. *)
Definition wjoin (a b : str) : str :=
  match prefix_of b with
  | NoPrefix =>
      if starts_sep b then match prefix_of a with Disk _ => firstn 2 a ++ b | _ => b end
      else match a with
           | [] => b
           | _ => if ends_sep a || match prefix_of a with Disk _ => match behind a with [] => true | _ => false end | _ => false end
                  then a ++ b else a ++ [92] ++ b
           end
  | _ => b
  end.

(** Names between separators. *)
Fixpoint wsplit (s : str) : list str :=
  match s with
  | [] => [[]]
  | c :: s => if is_wsep c then [] :: wsplit s
              else match wsplit s with p :: ps => (c :: p) :: ps | [] => [[c]] end
  end.
(** One name after another from a directory; ".." leads upwards, whatever is there. *)
Definition wstep (at_ : list str) (n : str) : list str :=
  match n with
  | [] => at_
  | _ => if str_eqb n [46] then at_ else if str_eqb n [46; 46] then removelast at_ else at_ ++ [n]
  end.
(** The current drive, and a working directory for every drive. *)
Record wenv := mkWenv { w_drive : N; w_cwd : N -> list str }.
(** The place of a path: [None] is somewhere on the network. *)
Definition wplace (env : wenv) (s : str) : option N * list str :=
  let v := match prefix_of s with NoPrefix => Some (w_drive env) | Disk c => Some c | Net => None end in
  let start := if starts_sep (behind s) then [] else match v with Some c => w_cwd env c | None => [] end in
  (v, fold_left wstep (wsplit (behind s)) start).

(** cmd_unpack.rs:20-25: the path that is created for an entry of the tree. *)
Definition win_target (dest : str) (x : str * dentry) : str :=
  wjoin (wjoin dest (trim_start (fst x))) (name_str (snd x)).
