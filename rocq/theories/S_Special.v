(** Specification vocabulary for what packing asks the file system for, and for
    directories with special files (C140). *)
From Verif Require Import M_Base M_Util M_Layout M_Read M_Img M_Special S_Img.
From Coq Require Import Init.Byte.
Local Open Scope N_scope.

(** The directories that are seen from the root. *)
Inductive seen {D} (fs : fsys D) : path -> Prop :=
| seen_root : seen fs []
| seen_child p es e : seen fs p -> read_dir fs p = Ok es -> In e es -> f_type e = TDirectory -> seen fs (p ++ [f_name e]).

(** The directory consists of plain files and directories with names in UTF-8 that
    can all be read, and they form the tree. *)
Inductive plain : raw -> ftree -> Prop :=
| plain_file b : plain (RFile b) (FFile b)
| plain_dir rs cs : Forall2 (fun r c => fst r = Some (fst c) /\ plain (snd r) (snd c)) rs cs -> plain (RDir rs) (FDir cs).

(** The same, but files may be sealed; [b] stands for their contents. *)
Inductive listable : raw -> ftree -> Prop :=
| ls_file b : listable (RFile b) (FFile b)
| ls_sealed b : listable (RSealed (len b)) (FFile b)
| ls_dir rs cs : Forall2 (fun r c => fst r = Some (fst c) /\ listable (snd r) (snd c)) rs cs -> listable (RDir rs) (FDir cs).

(** A directory has one entry per name. *)
Inductive raw_proper : raw -> Prop :=
| rp_dir cs : (forall i j n t t', nth_error cs i = Some (Some n, t) -> nth_error cs j = Some (Some n, t') -> i = j) -> Forall (fun c => raw_proper (snd c)) cs -> raw_proper (RDir cs)
| rp_other t : (forall cs, t <> RDir cs) -> raw_proper t.
