(** Specification vocabulary for extract-xiso from end to end (C149). *)
From Verif Require Import M_Base M_Util M_Layout M_Read M_Img M_Dev M_Cli M_Unpack M_Stdfs M_Host.
From Verif Require Import S_Read S_Img S_Dev S_Xfs S_Check S_Cli S_Unpack S_Exiso S_Stdfs.
From Coq Require Import Init.Byte.
Local Open Scope N_scope.

(** An image to be rewritten: how it is called on the command line, where it is, where
    the original goes, what it holds, and the tree in it. *)
Record rjob := mkRjob { r_arg : str; r_at : list str; r_old : list str; r_file : list byte; r_tree : ftree }.
Definition rewritable (m : build) (cwd : list str) (h : host) (j : rjob) : Prop :=
  canonicalize h cwd (r_arg j) = Ok (r_at j) /\ h (r_at j) = Some (HFile (r_file j)) /\ moved_to (r_at j) (r_old j) /\ h (r_old j) <> Some HDir
  /\ (exists d v, open_image (r_file j) = Ok d /\ read_volume d = Ok v /\ scans d (r_tree j) (v_root v))
  /\ source (r_tree j) /\ latin_tree (r_tree j) /\ representable m (r_tree j).

(** A directory to be packed: how it and the image are called on the command line, where
    it is, where the image goes, and the tree in it. *)
Record cjob := mkCjob { c_dir : str; c_file : option str; c_at : list str; c_out : list str; c_tree : ftree }.
Definition creatable (m : build) (ls : lister) (cwd : list str) (h : host) (j : cjob) : Prop :=
  canonicalize h cwd (c_dir j) = Ok (c_at j) /\ hosts h ls (c_at j) (c_tree j) /\ source (c_tree j) /\ representable m (c_tree j)
  /\ goes_to cwd (c_at j) (c_file j) (c_out j) /\ (forall f, c_file j = Some f -> ~ In 0 f /\ dirlike f = false)
  /\ exists dir n, c_out j = dir ++ [n] /\ h dir = Some HDir /\ h (c_out j) <> Some HDir.
