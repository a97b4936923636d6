(** Specification vocabulary for unpacking several images (C103-C105). *)
From Verif Require Import M_Base M_Util M_Layout M_Read M_Img M_Host S_Read S_Img S_Check S_Cli S_Unpack.
From Coq Require Import Init.Byte.
Local Open Scope N_scope.

(** A file name without its extension: what precedes the last dot, unless that dot is
    the first character or there is none. *)
Definition stem_of (n s : str) : Prop :=
  (exists e, n = s ++ 46 :: e /\ s <> [] /\ ~ In 46 e)
  \/ (n = s /\ (~ In 46 n \/ exists e, n = 46 :: e /\ ~ In 46 e)).

(** Exactly the tree [t] is found at [loc]. *)
Definition tree_at (h : host) (loc : list str) (t : ftree) : Prop :=
  (forall p t', at_path t p t' -> h (loc ++ p) = Some (as_node t'))
  /\ (forall p x, h (loc ++ p) = Some x -> exists t', at_path t p t').

(** An image to be extracted: how it is called on the command line, its contents,
    the tree in it, and its name without the extension. *)
Record xjob := mkJob { j_path : str; j_file : list byte; j_tree : ftree; j_stem : str }.

(** The image is there, and the directory named after it is not. *)
Definition extractable (cwd : list str) (h : host) (j : xjob) : Prop :=
  no_dotdot (j_path j)
  /\ (exists i n, canonicalize h cwd (j_path j) = Ok (i ++ [n]) /\ h (i ++ [n]) = Some (HFile (j_file j)) /\ stem_of n (j_stem j))
  /\ is_image (j_file j) (j_tree j) /\ unix_tree (j_tree j) /\ j_tree j <> FDir []
  /\ unix_name (j_stem j) /\ h (cwd ++ [j_stem j]) = None.
