(** Model of the lines that compress prints while it lays out the image
    (cmd_compress.rs:79-87). [show] is [path_to_string] of the source, in quotes and
    escaped as [{:?}] does. The line about compressed sectors is left out, as its events
    come from the ciso crate. *)
From Verif Require Import M_Base M_Util M_Img M_Trie M_Remap M_Cli.
From Coq Require Import Strings.String.
From Coq Require Import List.
Local Close Scope string_scope.
Local Open Scope N_scope.

(** cmd_compress.rs:79-87: the callback. *)
Definition on_layout (show : path -> str) (e : event) : list str :=
  match e with
  | EDirAdded p s => [text "Added dir: " ++ show p ++ text " at sector " ++ decimal s]
  | EFileAdded p s => [text "Added file: " ++ show p ++ text " at sector " ++ decimal s]
  | _ => []
  end.
Definition layout_lines (show : path -> str) (evs : list event) : list str := flat_map (on_layout show) evs.
