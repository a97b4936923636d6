(** Specification vocabulary for reads that give fewer bytes (C172). *)
From Verif Require Import M_Base M_Util M_Short.
From Coq Require Import Init.Byte.
Local Open Scope N_scope.

Definition never_fails (S : schedule) : Prop := forall k e, S k <> Fails e.
