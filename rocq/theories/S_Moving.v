(** Specification vocabulary for sources that change while they are packed (C151). *)
From Verif Require Import M_Base M_Util M_Layout M_Read M_Img M_Host S_Img.
From Coq Require Import Init.Byte.
Local Open Scope N_scope.

(** What is in a file when it is opened. *)
Definition contents (later : path -> host) (root : list str) (p : path) : option (list byte) :=
  match later p (root ++ p) with Some (HFile b) => Some b | _ => None end.

(** A file in the size that was listed: cut off, or filled up with zeros. *)
Definition fitted (size : N) (b : list byte) : list byte := firstn (N.to_nat size) b ++ fill (size - len b) x00.

(** The tree that was listed, with such files. *)
Fixpoint snapshot (now : path -> option (list byte)) (p : path) (t : ftree) : ftree :=
  match t with
  | FFile b => FFile (fitted (len b) (match now p with Some b' => b' | None => [] end))
  | FDir cs => FDir (map (fun c => (fst c, snapshot now (p ++ [fst c]) (snd c))) cs)
  end.

(** The file at [p], listed with [size] bytes, is not shorter when it is opened. *)
Definition kept (now : path -> option (list byte)) (p : path) (size : N) : Prop :=
  exists b, now p = Some b /\ size <= len b.
