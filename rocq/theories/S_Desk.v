(** Specification vocabulary for the desktop commands (C85-C88). *)
From Verif Require Import M_Base M_Host M_Desk.

(** The user is told that the command has failed. *)
Definition reports_error (r : res herr (option str)) : Prop := exists o e, r = Ok o /\ page_result o = inr e.
Definition reports_success (r : res herr (option str)) : Prop := exists o, r = Ok o /\ page_result o = inl tt.
