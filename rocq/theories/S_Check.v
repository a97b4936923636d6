(** Specification vocabulary for checksums (C45, C46). *)
From Verif Require Import M_Base M_Util M_Layout M_Read M_Img S_Avl S_Codec S_Read S_Img.
From Coq Require Import Init.Byte Permutation Sorting.Sorted.
Local Open Scope N_scope.

(** The device contains the tree [t] in region [r]: the data of a file, an empty
    region for an empty directory, or a table whose entries are exactly the
    children. Nothing is said about the place of the regions or the shape of the
    search tree. *)
Inductive contains (d : dev) : ftree -> region -> Prop :=
| ct_file b r : r_size r = len b -> (b <> [] -> d (2048 * r_sector r) (len b) = Ok b) -> contains d (FFile b) r
| ct_empty r : r_size r = 0 -> contains d (FDir []) r
| ct_dir cs r T es : directory d r T -> Permutation es (inorder T) ->
    Forall2 (fun c e => name_str e = fst c /\ is_dir e = is_fdir (snd c) /\ contains d (snd c) (region_of e)) cs es ->
    contains d (FDir cs) r.

(** Names without slashes. *)
Definition plain (t : ftree) : Prop := every_dir (fun cs => forall n, In n (map fst cs) -> ~ In 47 n) t.

(** The path "/a/b" of the components a, b. *)
Definition slashed (p : path) : str := concat (map (fun n => 47 :: n) p).
Definition content (t : ftree) : option (list byte) := match t with FFile b => Some b | FDir _ => None end.

(** The entries of a tree in the order of their paths. *)
Definition fingerprint (t : ftree) (s : list (str * option (list byte))) : Prop :=
  StronglySorted (fun a b => lex_lt (fst a) (fst b)) s
  /\ forall k c, In (k, c) s <-> exists p t', p <> [] /\ at_path t p t' /\ k = slashed p /\ c = content t'.

(** ... as bytes: every path in UTF-8, followed by the data of a file. *)
Definition stream (s : list (str * option (list byte))) : list byte :=
  concat (map (fun x => map n2b (utf8_str (fst x)) ++ match snd x with Some b => b | None => [] end) s).

(** What the hashed bytes do not show: paths, kinds and sizes. *)
Definition shape (x : str * option (list byte)) : str * option N := (fst x, option_map len (snd x)).
