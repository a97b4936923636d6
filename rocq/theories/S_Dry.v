(** Specification vocabulary for dry runs (C173). *)
From Verif Require Import M_Base M_Util M_Layout M_Img M_Trie S_Img.
From Coq Require Import Init.Byte.
Local Open Scope N_scope.

(** The pairs tell of each file of the image [t'] from which file of the host
    directory [t] it is, and of no other files. *)
Definition tells_files (out : list (path * path)) (t t' : ftree) : Prop :=
  forall q b, at_path t' q (FFile b) <-> exists h, In (h, q) out /\ at_path t h (FFile b).
(** A line for a pair: the path on the host, an arrow, and the path in the image. *)
Definition slashed (p : path) : str := match p with [] => [47] | _ => concat (map (fun n => 47 :: n) p) end.
Definition arrow (x : path * path) : str := slashed (fst x) ++ [32; 45; 62; 32] ++ slashed (snd x).
