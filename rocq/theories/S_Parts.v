(** Specification vocabulary for the files of a compressed image (C165). *)
From Verif Require Import M_Base M_Util M_Read M_Img M_Dev M_Parts.
From Coq Require Import Init.Byte.
Local Open Scope N_scope.

(** The contents that the calls ask for, file by file. *)
Definition asks_for (c : call) (fs : list (list byte)) : list (list byte) :=
  match c with
  | Create => fs ++ [[]]
  | Put i pos b => map (fun '(j, f) => if Nat.eqb i j then file_write f pos b else f) (combine (seq 0 (length fs)) fs)
  | Close _ => fs
  end.
Definition asked_for (cs : list call) : list (list byte) := fold_left (fun fs c => asks_for c fs) cs [].

(** Files are created before they are used and not used after they were closed; [o] says
    which of the files are open. *)
Fixpoint in_order (o : list bool) (cs : list call) : Prop :=
  match cs with
  | [] => True
  | Create :: cs => in_order (o ++ [true]) cs
  | Put i _ _ :: cs => nth_error o i = Some true /\ in_order o cs
  | Close i :: cs => nth_error o i = Some true /\ in_order (firstn i o ++ [false] ++ skipn (i + 1) o) cs
  end.
