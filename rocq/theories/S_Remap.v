(** Specification vocabulary for the remapping overlay (C42-C44, C60-C64). *)
From Verif Require Import M_Base M_Util M_Layout M_Read M_Img M_Trie M_Remap S_Img S_Trie.
From Coq Require Import Init.Byte.
Local Open Scope N_scope.

(** ** Templates *)
Definition is_digit (c : N) : Prop := 48 <= c <= 57.

(** The number written by the digits of a text; other characters do not count. *)
Definition written (s : str) : N := fold_left (fun n c => if (48 <=? c) && (c <=? 57) then n * 10 + (c - 48) else n) s 0.

(** A template with the numbers between its braces. *)
Inductive template : str -> list N -> Prop :=
| tp_nil : template [] []
| tp_char c s l : c <> 123 -> template s l -> template (c :: s) l
| tp_hole body s l : Forall (fun c => is_digit c \/ c = 123) body -> template s l ->
    template (123 :: body ++ 125 :: s) (written body :: l).

(** Literal characters and holes. *)
Inductive item := Lit (c : N) | Hole (n : N).
Definition show_item (i : item) : str := match i with Lit c => [c] | Hole n => placeholder n end.
Definition show (l : list item) : str := flat_map show_item l.
Definition filled (caps : N -> option str) (l : list item) : str :=
  flat_map (fun i => match i with Lit c => [c] | Hole n => match caps n with Some s => s | None => [] end end) l.

(** ** Rules *)
Definition matches_rule (k : (str * str) * glob) (s : str) : Prop := snd k s <> None.
Definition negated (k : (str * str) * glob) : Prop := exists rest, fst (fst k) = 33 :: rest.

(** The rule that decides about [s]: it matches and is not negated, no matching
    negated rule comes later, and every other such rule before it is cancelled by a
    negated one in between. *)
Definition selects (keys : list ((str * str) * glob)) (s : str) (to : str) (caps : N -> option str) : Prop :=
  exists l1 l2 from g, keys = l1 ++ ((from, to), g) :: l2 /\ g s = Some caps /\ ~ negated ((from, to), g)
    /\ (forall k, In k l2 -> matches_rule k s -> ~ negated k)
    /\ (forall a k b, l1 = a ++ k :: b -> matches_rule k s -> ~ negated k -> exists n, In n b /\ matches_rule n s /\ negated n).

(** The compiled rules: leading exclamation marks are not part of a pattern. *)
Definition rules (wax : str -> option glob) (cfg : config) (keys : list ((str * str) * glob)) : Prop :=
  Forall2 (fun r k => fst k = r /\ wax (trim_start_c 33 (fst r)) = Some (snd k)) cfg keys.

(** The longest part of [p] from the start that some rule matches, and the rest. *)
Definition best (keys : list ((str * str) * glob)) (p pr suf : path) : Prop :=
  p = pr ++ suf /\ pr <> [] /\ (exists k, In k keys /\ matches_rule k (candidate pr))
  /\ forall a b k, suf = a ++ b -> a <> [] -> In k keys -> ~ matches_rule k (candidate (pr ++ a)).

(** ** The overlay *)
(** The entries below a directory in the order in which the walk finds them. *)
Fixpoint host_order (p : path) (t : ftree) : list (path * ftree) :=
  match t with
  | FFile _ => []
  | FDir cs => map (fun c => (p ++ [fst c], snd c)) cs ++ concat (rev (map (fun c => host_order (p ++ [fst c]) (snd c)) cs))
  end.

(** Host path, host entry, image path. *)
Definition claim := (path * ftree * path)%type.

(** What the rules make of one entry. *)
Definition maps_to (m : build) (keys : list ((str * str) * glob)) (p r : path) : Prop :=
  exists pr suf to caps, best keys p pr suf /\ selects keys (candidate pr) to caps /\ rewrite_path m caps to suf = Ok r.

Inductive claims (m : build) (keys : list ((str * str) * glob)) : list (path * ftree) -> list claim -> Prop :=
| cl_nil : claims m keys [] []
| cl_skip p s l cs : (forall pr suf to caps, best keys p pr suf -> ~ selects keys (candidate pr) to caps) ->
    claims m keys l cs -> claims m keys ((p, s) :: l) cs
| cl_take p s l r cs : maps_to m keys p r -> claims m keys l cs -> claims m keys ((p, s) :: l) ((p, s, r) :: cs).

(** The first claim whose image path goes through [q]. *)
Fixpoint claimant (q : path) (l : list claim) : option claim :=
  match l with
  | [] => None
  | (h, s, r) :: l => if path_eq_dec (firstn (length q) r) q then Some (h, s, r) else claimant q l
  end.

(** What is found at an image path: a directory, or the bytes of a host file. *)
Inductive node := NDir | NFile (host : path) (b : list byte).
Definition node_at (l : list claim) (q : path) : option node :=
  match claimant q l with
  | None => None
  | Some (h, s, r) => Some (if path_eq_dec r q then match s with FFile b => NFile h b | FDir _ => NDir end else NDir)
  end.

(** Everything above [q] is a directory. *)
Definition open_to (l : list claim) (q : path) : Prop :=
  forall a c, q = a ++ c -> a <> [] -> c <> [] -> node_at l a = Some NDir.

(** The tree shows exactly what the claims put there. *)
Definition overlay_shows (l : list claim) (t : ftree) : Prop :=
  is_fdir t = true /\ proper t
  /\ (forall q b, at_path t q (FFile b) <-> q <> [] /\ open_to l q /\ exists h, node_at l q = Some (NFile h b))
  /\ (forall q, q <> [] -> ((exists cs, at_path t q (FDir cs)) <-> open_to l q /\ node_at l q = Some NDir)).

(** A number between braces that does not fit into 64 bits. *)
Definition huge_index (s : str) : Prop :=
  exists pre body post, s = pre ++ 123 :: body ++ post /\ Forall (fun c => is_digit c \/ c = 123) body /\ usize_modulus <= written body.
