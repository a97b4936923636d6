(** Specification vocabulary for small pages of directory listings (C148). *)
From Verif Require Import M_Base M_Read M_Fuse S_Fuse.
Local Open Scope N_scope.

(** A reply has room for at least one record. *)
Definition holds_one (full : list rdent -> rdent -> bool) : Prop := forall x, full [] x = false.
(** As [reads_dir], for all such replies. *)
Inductive reads_pages (ino : N) : mount -> N -> list rdent -> mount -> Prop :=
| rp_end fuel fs offset full fs' : holds_one full -> fuse_readdir fuel fs ino offset full = (fs', Ok []) ->
    reads_pages ino fs offset [] fs'
| rp_more fuel fs offset full l x fs1 fs2 l' fs' : holds_one full -> fuse_readdir fuel fs ino offset full = (fs1, Ok (l ++ [x])) ->
    requests fs1 fs2 -> reads_pages ino fs2 (rd_off x) l' fs' -> reads_pages ino fs offset ((l ++ [x]) ++ l') fs'.

(** A request at [offset] has room for the entries "." and ".." that it asks for. *)
Definition dots_fit (ino offset : N) (full : list rdent -> rdent -> bool) : Prop :=
  let dot := mkRdent ino 1 true [46] in
  let dotdot := mkRdent ino 2 true [46; 46] in
  (offset = 0 -> full [] dot = false /\ full [dot] dotdot = false) /\ (offset = 1 -> full [] dotdot = false).
