(** Specification vocabulary for compressing in the browser (C168). *)
From Verif Require Import M_Base M_Util M_Read M_Img M_Dev M_Web M_Parts M_Streams S_Parts.
From Coq Require Import Init.Byte.
Local Open Scope N_scope.

(** Which of the files are open after the calls. *)
Fixpoint left_open (o : list bool) (cs : list call) : list bool :=
  match cs with
  | [] => o
  | Create :: cs => left_open (o ++ [true]) cs
  | Put _ _ _ :: cs => left_open o cs
  | Close i :: cs => left_open (firstn i o ++ [false] ++ skipn (i + 1) o) cs
  end.
(** Nothing is written with an empty buffer. *)
Definition substantial (c : call) : Prop := match c with Put _ _ b => b <> [] | _ => True end.
(** The browser never fails. *)
Definition fair (W : weather) : Prop := (forall i, w_creates W i = true) /\ (forall i, w_opens W i = true) /\ (forall i, w_calls W i = true).
