(** Specification vocabulary for compressing and for compressed images (C106-C108). *)
From Verif Require Import M_Base M_Util M_Layout M_Read M_Remap M_Host S_Unpack.
From Coq Require Import Init.Byte.
Local Open Scope N_scope.

(** Spelled without ".." and not beginning with ".". *)
Definition plainly (s : str) : Prop := no_dotdot s /\ (forall r, s <> [46] /\ s <> 46 :: 47 :: r).
(** Both absolute or both relative. *)
Definition spelled_alike (a b : str) : Prop := plainly a /\ plainly b /\ ((exists r r', a = 47 :: r /\ b = 47 :: r') \/ ((forall r, a <> 47 :: r) /\ (forall r, b <> 47 :: r))).

(** The path ends in the name [n]; otherwise its last component is "..", or it has
    none. *)
Definition ends_in (s n : str) : Prop := exists i, pcomps s = i ++ [n] /\ n <> [46; 46].
Definition nameless (s : str) : Prop := pcomps s = [] \/ exists i, pcomps s = i ++ [[46; 46]].

(** x.i.cso *)
Definition part_name (x : str) (i : N) : str := x ++ 46 :: decimal i ++ [46; 99; 115; 111].
Definition part_places (dir : list str) (x : str) (k : nat) : list (list str) := map (fun i => dir ++ [part_name x (N.of_nat i)]) (seq 1 k).
