(** Specification vocabulary for the browser back end (C93-C99). *)
From Verif Require Import M_Base M_Util M_Layout M_Read M_Img M_Dev M_Xfs M_Cli M_Unpack M_Host M_Web S_Codec S_Read S_Img S_Dev S_Check S_Cli S_Unpack.
From Coq Require Import Init.Byte Sorting.Sorted.
Local Open Scope N_scope.

(** The entries of every directory are in the order of their names. *)
Definition name_sorted (t : ftree) : Prop := every_dir (fun cs => StronglySorted (fun a b => lex_lt (fst a) (fst b)) cs) t.

(** [new] is the image [img] with zeros appended, in whole blocks of 64 KiB. *)
Definition extends_image (img new : list byte) : Prop := exists k, new = img ++ fill k x00 /\ len new mod 65536 = 0.

(** A property of the result for every sufficiently large fuel. *)
Definition settles {A} (f : nat -> A) (P : A -> Prop) : Prop := exists n, forall fuel, (n <= fuel)%nat -> P (f fuel).

(** What comes out of packing the tree [t] over the bytes [old]: an image like that
    of the command line tool, or an error and the old bytes. *)
Definition web_outcome (m : build) (q : option N) (t : ftree) (old : list byte) (x : list byte * list event * res werr unit) : Prop :=
  (exists img evs, x = (fst (fst x), evs, Ok tt) /\ returns (fun fuel => create_xdvdfs_image fuel m file_wdev (std_fs t) ([], [])) ((img, evs), Ok tt)
     /\ extends_image img (fst (fst x)) /\ readable (file_dev (fst (fst x))) t)
  \/ (exists evs e, x = (old, evs, Err e) /\ (q = None -> exists r, e = InvalidFileStructureError r /\ reason m t r)).

(** ** Unpacking *)
(** The names are accepted by the browser. *)
Definition web_names (accepts : str -> bool) (t : ftree) : Prop :=
  every_dir (fun cs => forall n, In n (map fst cs) -> n <> [] /\ n <> [46] /\ n <> [46; 46] /\ ~ In 47 n /\ accepts n = true) t.

(** Entries that exist already are of the right kind. *)
Definition same_kinds (loc : list str) (t : ftree) (h : host) : Prop :=
  forall p t', at_path t p t' -> match t', h (loc ++ p) with
                                 | FDir _, Some (HFile _) => False
                                 | FFile _, Some HDir => False
                                 | _, _ => True
                                 end.
(** ... and where the tree has an empty file there is no other file. *)
Definition no_leftovers (loc : list str) (t : ftree) (h : host) : Prop :=
  forall p b, at_path t p (FFile []) -> h (loc ++ p) = Some (HFile b) -> b = [].

(** [h'] is [h] with the entries of the tree [t] at [loc]. *)
Definition merged (loc : list str) (t : ftree) (h h' : host) : Prop :=
  (forall p t', at_path t p t' -> h' (loc ++ p) = Some (as_node t'))
  /\ (forall q, (forall p t', at_path t p t' -> q <> loc ++ p) -> h' q = h q).

(** A name in a directory, not a way to somewhere else. *)
Definition plain_name (n : str) : Prop := n <> [] /\ n <> [46] /\ n <> [46; 46] /\ ~ In 47 n.

(** ** Progress of unpacking *)
(** The last total announced, and the number of entries reported as done. *)
Definition announced (evs : list event) : option N :=
  fold_left (fun c e => match e with EFileCount n => Some n | _ => c end) evs None.
Definition done_count (evs : list event) : N := len (filter is_file_added evs).
(** The number of entries, and of those that are not empty files. *)
Fixpoint entry_count (t : ftree) : N :=
  match t with FFile _ => 1 | FDir cs => 1 + fold_right (fun c k => entry_count (snd c) + k) 0 cs end.
Fixpoint shown_count (t : ftree) : N :=
  match t with
  | FFile [] => 0
  | FFile _ => 1
  | FDir cs => 1 + fold_right (fun c k => shown_count (snd c) + k) 0 cs
  end.

(** Nothing has changed but entries below [dest], reached by plain names; existing
    directories and files are still there. *)
Definition only_below (dest : list str) (h h' : host) : Prop :=
  forall q, h' q = h q \/ (exists p, p <> [] /\ q = dest ++ p /\ Forall plain_name p) /\ h q <> Some HDir /\ ((exists b, h q = Some (HFile b)) -> exists b, h' q = Some (HFile b)).
