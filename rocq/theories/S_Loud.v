(** Specification vocabulary for the lines of unpack (C175). *)
From Verif Require Import M_Base M_Util M_Layout M_Img M_Cli.
From Coq Require Import Init.Byte Strings.String.
From Coq Require Import List.
Local Close Scope string_scope.
Local Open Scope N_scope.

(** A path below the destination, written with it. *)
Definition below (dest : str) (p : path) : str := dest ++ concat (map (fun n => 47 :: n) p).
Definition extracting (dest : str) (x : path * ftree) : str :=
  (match snd x with FDir _ => text "Extracting directory " | FFile _ => text "Extracting file " end) ++ below dest (fst x).
(** A destination that is written without a slash at its end. *)
Definition plainly (dest : str) : Prop := exists d c, dest = d ++ [c] /\ c <> 47.
