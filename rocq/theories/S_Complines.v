(** Specification vocabulary for the lines of compress (C177). *)
From Verif Require Import M_Base M_Util M_Img M_Trie M_Remap M_Cli S_Lines.
From Coq Require Import Strings.String.
From Coq Require Import List.
Local Close Scope string_scope.
Local Open Scope N_scope.

(** The line for what it tells (see [line_of]). *)
Definition plain_line (show : path -> str) (x : tale) : str :=
  let '(dir, p, s) := x in text "Added " ++ (if dir then text "dir" else text "file") ++ text ": " ++ show p ++ text " at sector " ++ decimal s.
