(** Specification vocabulary for packing paths and extract-xiso (C50, C51, C71-C73). *)
From Verif Require Import M_Base M_Read M_Host M_Exiso S_Unpack.
From Coq Require Import Init.Byte.
Local Open Scope N_scope.

(** A file name with another extension: the new one replaces what follows the last
    dot, unless that dot is the first character or there is none. *)
Definition new_ext (ext n n' : str) : Prop :=
  (exists a e, n = a ++ 46 :: e /\ a <> [] /\ ~ In 46 e /\ n' = a ++ 46 :: ext)
  \/ ((~ In 46 n \/ exists e, n = 46 :: e /\ ~ In 46 e) /\ n' = n ++ 46 :: ext).

(** Neither this file nor anything in this directory differs. *)
Definition untouched (p : list str) (h h' : host) : Prop := forall q, leads_to p q -> h' q = h q.

(** At most the file at [o] differs; it was no directory. *)
Definition changes_only (o : list str) (h h' : host) : Prop :=
  forall q, h' q = h q \/ (q = o /\ h q <> Some HDir /\ exists b, h' q = Some (HFile b)).

(** The arguments -c DIR [FILE] -c DIR [FILE] ... *)
Definition create_line (gs : list (str * option str)) : list str :=
  concat (map (fun g => [45; 99] :: fst g :: match snd g with Some f => [f] | None => [] end) gs).

(** The place where the image of the directory at [d] goes. *)
Definition goes_to (cwd d : list str) (file : option str) (o : list str) : Prop :=
  match file with
  | Some f => no_dotdot f /\ o = place cwd f
  | None => exists i n n', d = i ++ [n] /\ new_ext [105; 115; 111] n n' /\ o = i ++ [n']
  end.

(** The original image, which was at [p], is there or at [q], unless it was to be
    deleted and packing it has succeeded before. *)
Definition kept (pk : packer) (delete : bool) (p q : list str) (b : list byte) (h' : host) : Prop :=
  h' p = Some (HFile b) \/ h' q = Some (HFile b)
  \/ (delete = true /\ exists h, h q = Some (HFile b) /\ snd (pk h q) = Ok tt).

(** The place of the original image while and after it is rewritten. *)
Definition moved_to (p q : list str) : Prop := exists i n n', p = i ++ [n] /\ q = i ++ [n'] /\ new_ext [111; 108; 100] n n'.
