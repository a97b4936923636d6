(** Specification vocabulary for Windows (C157). *)
From Verif Require Import M_Base M_Util M_Read M_Img S_Read S_Img.
Local Open Scope N_scope.

(** A name without separators and colons that is not a step. *)
Definition win_name (n : str) : Prop := n <> [] /\ n <> [46] /\ n <> [46; 46] /\ ~ In 47 n /\ ~ In 92 n /\ ~ In 58 n.
Definition win_tree (t : ftree) : Prop := every_dir (fun cs => forall n, In n (map fst cs) -> win_name n) t.
(** The path does not begin with two separators. *)
Definition on_disk (s : str) : Prop := forall a b s', s = a :: b :: s' -> ~ ((a = 47 \/ a = 92) /\ (b = 47 \/ b = 92)).
