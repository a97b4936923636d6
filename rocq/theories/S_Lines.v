(** Specification vocabulary for the lines printed while packing (C174). *)
From Verif Require Import M_Base M_Util M_Img M_Trie M_Remap M_Cli.
From Coq Require Import Strings.String.
From Coq Require Import List.
Local Close Scope string_scope.
Local Open Scope N_scope.

(** What a line tells: whether it says "dir" (or "file"), a path, and a sector. *)
Definition tale : Type := bool * path * N.
Definition line_of (show : path -> str) (i n : N) (x : tale) : str :=
  let '(dir, p, s) := x in
  [91] ++ decimal i ++ [47] ++ decimal n ++ [93] ++ (if dir then text " Added dir: " else text " Added file: ") ++ show p ++ text " at sector " ++ decimal s.
(** Numbered from [i] on, of [n]. *)
Fixpoint numbered (show : path -> str) (i n : N) (l : list tale) : list str :=
  match l with [] => [] | x :: l => line_of show i n x :: numbered show (i + 1) n l end.
