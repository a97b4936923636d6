(** Model of the lines that pack and build-image print while they pack
    (cmd_pack.rs:75-90, cmd_build_image.rs:230-243). [show] is [path_to_string] of the
    source; the counters are unbounded. *)
From Verif Require Import M_Base M_Util M_Img M_Trie M_Remap M_Cli.
From Coq Require Import Strings.String.
From Coq Require Import List.
Local Close Scope string_scope.
Local Open Scope N_scope.

(** cmd_pack.rs:82 and 86. *)
Definition added_line (show : path -> str) (what : str) (progress_count file_count : N) (p : path) (sector : N) : str :=
  text "[" ++ decimal progress_count ++ text "/" ++ decimal file_count ++ text "] Added " ++ what ++ text ": " ++ show p
  ++ text " at sector " ++ decimal sector.

(** The two counters, and the lines so far. *)
Definition printer : Type := (N * N) * list str.
(** cmd_pack.rs:77-90 ([plus] is true) and cmd_build_image.rs:230-243: the callback. *)
Definition on_event (plus : bool) (show : path -> str) (st : printer) (e : event) : printer :=
  let '((progress_count, file_count), out) := st in
  match e with
  | EFileCount n => ((progress_count, if plus then file_count + n else n), out)
  | EDirCount n => ((progress_count, file_count + n), out)
  | EDirAdded p s => ((progress_count + 1, file_count), out ++ [added_line show (text "dir") (progress_count + 1) file_count p s])
  | EFileAdded p s => ((progress_count + 1, file_count), out ++ [added_line show (text "file") (progress_count + 1) file_count p s])
  | _ => st
  end.
Definition progress_lines (plus : bool) (show : path -> str) (evs : list event) : list str :=
  snd (fold_left (on_event plus show) evs ((0, 0), [])).
