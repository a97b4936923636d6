(** Specification vocabulary for unpacking over something (C155). *)
From Verif Require Import M_Base M_Read M_Img M_Host S_Read S_Img S_Unpack.
Local Open Scope N_scope.

(** Between [h] and [h'], the entries of the tree [t] were put at [loc]: directories
    to free places, files to free places or over other files. Everything else is as
    before, except for missing directories on the way to [loc]. *)
Definition laid_over (loc : list str) (t : ftree) (h h' : host) : Prop :=
  (forall p t', p <> [] -> at_path t p t' -> h' (loc ++ p) = Some (as_node t'))
  /\ (forall p cs, p <> [] -> at_path t p (FDir cs) -> h (loc ++ p) = None)
  /\ (forall p b, p <> [] -> at_path t p (FFile b) -> h (loc ++ p) <> Some HDir)
  /\ (forall q, (forall p t', p <> [] -> at_path t p t' -> q <> loc ++ p) ->
        h' q = h q \/ (leads_to q loc /\ h q = None /\ h' q = Some HDir)).

(** The tree has a directory besides its root. *)
Definition has_subdir (t : ftree) : Prop := exists p cs, p <> [] /\ at_path t p (FDir cs).

(** No call fails by itself, and [t] can be put at [dest]: the way there is free,
    directories have free places and files do not fall on directories. *)
Definition room_for (loc : list str) (t : ftree) (h : host) : Prop :=
  (forall p cs, p <> [] -> at_path t p (FDir cs) -> h (loc ++ p) = None)
  /\ (forall p b, p <> [] -> at_path t p (FFile b) -> h (loc ++ p) <> Some HDir).
Definition ready_over (cwd : list str) (dest : str) (t : ftree) (w : world) : Prop :=
  w_left w = None /\ rooted (w_fs w) /\ w_fs w cwd = Some HDir /\ no_dotdot dest /\ ~ In 0 dest
  /\ (forall q, leads_to q (place cwd dest) -> w_fs w q = None \/ w_fs w q = Some HDir)
  /\ room_for (place cwd dest) t (w_fs w).
