(** Model of build-image as a program (cmd_build_image.rs:138-248): what a dry run
    prints, and how the process ends. The lines about progress of a run that is not
    dry are not modelled. *)
From Verif Require Import M_Base M_Util M_Layout M_Read M_Img M_Trie M_Remap M_Cli M_Unpack M_Stdfs M_Host M_Build M_Main.
From Coq Require Import Init.Byte Strings.String.
From Coq Require Import List.
Local Close Scope string_scope.
Local Open Scope N_scope.

(** cmd_build_image.rs:216: one line. *)
Definition dry_line (x : path * path) : str := as_string (fst x) ++ text " -> " ++ as_string (snd x).

(** cmd_build_image.rs:138-248 [cmd_build_image], with its output. [dfuel] is for
    [dump], which has no errors. *)
Definition build_effect (fuel dfuel : nat) (m : build) (wax : str -> option glob) (ls : lister) (toml : list byte -> option spec)
  (cwd : list str) (a : build_args) : effect := fun w =>
  match build_image toml (std_overlay fuel m wax ls) (std_overlay_packer fuel m ls) cwd a w with
  | (w, Ok None) => ((w, []), Ok tt)
  | (w, Ok (Some tr)) =>
      match dump dfuel tr with
      | Ok out => ((w, map dry_line out), Ok tt)
      | Err _ => ((w, []), Err (UHost HPack))
      | Panic p => ((w, []), Panic p)
      | OutOfFuel => ((w, []), OutOfFuel)
      end
  | (w, Err e) => ((w, []), Err (UHost e))
  | (w, Panic p) => ((w, []), Panic p)
  | (w, OutOfFuel) => ((w, []), OutOfFuel)
  end.
