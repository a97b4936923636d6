(** Specification vocabulary for the read commands of the command line tool
    (C58, C66-C69). *)
From Verif Require Import M_Base M_Util M_Layout M_Read M_Img M_Remap M_Cli S_Avl S_Codec S_Read S_Img S_Check.
From Coq Require Import Init.Byte Permutation Strings.String.
From Coq Require Import List.
Local Close Scope string_scope.
Local Open Scope N_scope.

(** [file] is an image of the directory tree [t], written by this or another
    tool, in any of the supported disc layouts; [d] and [r] are the device and
    the root table found in it. *)
Definition opens_as (file : list byte) (d : dev) (r : region) (t : ftree) : Prop :=
  open_image file = Ok d /\ (exists v, read_volume d = Ok v /\ r = v_root v) /\ is_fdir t = true /\ contains d t r.
Definition is_image (file : list byte) (t : ftree) : Prop := exists d r, opens_as file d r t.

(** The path, as given by the user, selects the entry [t'] named [n]. *)
Definition selects (t : ftree) (path : str) (n : str) (t' : ftree) : Prop :=
  exists segs, path_of segs path /\ names t segs n t'.
(** ... the directory with children [cs]. *)
Definition selects_dir (t : ftree) (path : str) (cs : list (str * ftree)) : Prop :=
  path = [47] /\ t = FDir cs \/ exists n, selects t path n (FDir cs).

(** ** Numbers and bytes as text *)
(** [s] is [n] in decimal, without superfluous zeros. *)
Definition shows_number (n : N) (s : str) : Prop :=
  s <> [] /\ Forall (fun c => 48 <= c <= 57) s /\ fold_left (fun v c => v * 10 + (c - 48)) s 0 = n
  /\ (hd 0 s = 48 -> s = [48]).
Definition hex_text (l : list byte) : str :=
  let digit n := nth (N.to_nat n) (text "0123456789abcdef") 0 in
  flat_map (fun b => [digit (b2n b / 16); digit (b2n b mod 16)]) l.

(** ** tree *)
Definition row_line (x : str * str * option N) : str :=
  let '(p, n, s) := x in
  p ++ [47] ++ n ++ match s with
                    | None => text "/ (0 bytes)"
                    | Some s => text " (" ++ decimal s ++ text " bytes)"
                    end.
Fixpoint count_files (t : ftree) : N :=
  match t with
  | FFile _ => 1
  | FDir cs => fold_right (fun c k => count_files (snd c) + k) 0 cs
  end.
Fixpoint count_bytes (t : ftree) : N :=
  match t with
  | FFile b => len b
  | FDir cs => fold_right (fun c k => count_bytes (snd c) + k) 0 cs
  end.

(** All entries of a tree with their paths, each of them once. *)
Definition enumerates (t : ftree) (l : list (path * ftree)) : Prop :=
  NoDup (map fst l) /\ forall p t', In (p, t') l <-> p <> [] /\ at_path t p t'.

(** ** md5 *)
(** A line of the output of md5sum. *)
Definition md5_line (H : list byte -> list byte) (b : list byte) (name : str) : str := hex_text (H b) ++ text "  " ++ name.

(** The line for the entry [x], printed as [show path]. What is hashed for a
    directory is left open. *)
Definition md5_lists (H : list byte -> list byte) (show : path -> str) (line : str) (x : path * ftree) : Prop :=
  match snd x with
  | FFile b => line = md5_line H b (show (fst x))
  | FDir _ => exists b, line = md5_line H b (show (fst x))
  end.
(** How a path below the directory given on the command line is printed. *)
Definition below (dir : str) (p : path) : str :=
  match p with
  | [n] => dir ++ [47] ++ n
  | _ => dir ++ [47] ++ slashed p
  end.

(** ** info *)
Definition child_text (o : N) : str := if o =? 0 then text "None" else decimal (4 * o) ++ text " bytes".
(** The names of the attribute bits that are set, each but the first after a blank. *)
Definition attr_names : list (N * str) :=
  [(4, text "Directory"); (0, text "Read-Only"); (1, text "Hidden"); (2, text "System"); (5, text "Archive"); (7, text "Normal")].
Definition attrs_text (a : N) : str :=
  tl (concat (map (fun x => if N.testbit a (fst x) then 32 :: snd x else []) attr_names)).
Definition info_lines (e : dentry) : list str :=
  [ text "Name:                " ++ name_str e;
    text "Offset:              " ++ decimal (e_offset e);
    text "Left Child Offset:   " ++ child_text (d_left (e_node e));
    text "Right Child Offset:  " ++ child_text (d_right (e_node e));
    text "Data Location:       " ++ text "Sector " ++ decimal (r_sector (region_of e)) ++ text " (" ++ decimal (r_size (region_of e)) ++ text " bytes)";
    text "Attributes:          " ++ attrs_text (d_attrs (d_dirent (e_node e))) ].
Definition child_lines (e : dentry) : list str := name_str e :: info_lines e ++ [[]].

(** No directory table is larger than 64 KiB. *)
Definition tables_below_64k (d : dev) (root : region) : Prop :=
  r_size root <= 65536 /\ forall segs e, lookup d root segs (Ok e) -> is_dir e = true -> r_size (region_of e) <= 65536.
