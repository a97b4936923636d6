(** Specification vocabulary for hosts that fold names (C164). *)
From Verif Require Import M_Base M_Img S_Img.
Local Open Scope N_scope.

(** The characters that matter in paths are left alone: the slash, the dot and NUL. *)
Definition folding (f : N -> N) : Prop :=
  forall c, (f c = 47 <-> c = 47) /\ (f c = 46 <-> c = 46) /\ (f c = 0 <-> c = 0).

(** The tree with all names folded. *)
Fixpoint fold_tree (f : N -> N) (t : ftree) : ftree :=
  match t with
  | FFile b => FFile b
  | FDir cs => FDir (map (fun c => (map f (fst c), fold_tree f (snd c))) cs)
  end.

(** In no directory do two names become the same. *)
Definition kept_apart (f : N -> N) (t : ftree) : Prop :=
  every_dir (fun cs => NoDup (map (fun c => map f (fst c)) cs)) t.
