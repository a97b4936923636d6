(** Specification vocabulary for the scan of a table by sectors (C33, C119, C120). *)
From Verif Require Import M_Base M_Util M_Layout M_Read S_Avl S_Codec S_Read S_Img.
From Coq Require Import Init.Byte Relations Permutation.
Local Open Scope N_scope.

(** No record: all bits one or all bits zero. *)
Definition blank (b : list byte) : Prop := b = fill 14 xff \/ b = fill 14 x00.
(** Where the next record would begin: at the next multiple of four. *)
Definition behind (e : dentry) : N := 4 * ((e_offset e + 14 + d_namelen (d_dirent (e_node e)) + 3) / 4).
(** The record [e] lies in the sector [b] at byte [o], completely. *)
Definition lies_in (b : list byte) (o : N) (e : dentry) : Prop :=
  o + 14 < 2048 /\ e_offset e = o /\ stored (file_dev b) e.

(** The records of the sector [b], one behind the other from byte [o] up to the first
    blank record or the end of the sector. *)
Inductive chain (b : list byte) : N -> list dentry -> Prop :=
| chain_full o : 2048 <= o + 14 -> chain b o []
| chain_blank o : o + 14 < 2048 -> blank (slice b o 14) -> chain b o []
| chain_record o e es : lies_in b o e -> chain b (behind e) es -> chain b o (e :: es).
(** One of them has a name that crosses the end of the sector. *)
Inductive crosses (b : list byte) : N -> Prop :=
| crosses_here o n : o + 14 < 2048 -> ~ blank (slice b o 14) -> field (slice b o 14) 13 1 n -> n < 256 -> 2048 < o + 14 + n -> crosses b o
| crosses_later o e : lies_in b o e -> crosses b (behind e) -> crosses b o.

(** The outcome of listing [n] sectors from sector [s] on. *)
Inductive scanned (d : dev) : N -> nat -> res rerr (list dentry) -> Prop :=
| scanned_end s : scanned d s 0 (Ok [])
| scanned_error s n e : d (2048 * s) 2048 = Err e -> scanned d s (S n) (Err (IOError e))
| scanned_panic s n p : d (2048 * s) 2048 = Panic p -> scanned d s (S n) (Panic p)
| scanned_crosses s n b : d (2048 * s) 2048 = Ok b -> crosses b 0 -> scanned d s (S n) (Panic PAssert)
| scanned_sector s n b es x : d (2048 * s) 2048 = Ok b -> chain b 0 es -> scanned d (s + 1) n x ->
    scanned d s (S n) (let* rest := x in Ok (es ++ rest)).

(** The number of sectors of a table. *)
Definition table_sectors (r : region) : nat := N.to_nat ((r_size r + 2047) / 2048).

(** The table [r'] belongs to a directory in the directory with table [r]. *)
Definition child_table (d : dev) (r r' : region) : Prop :=
  exists T e, directory d r T /\ In e (inorder T) /\ is_dir e = true /\ r' = region_of e.
(** The records of all tables, from the table [r] on, lie one behind the other from the
    beginning of each sector, and no others. *)
Definition tidy (d : dev) (r : region) : Prop :=
  forall r' T, clos_refl_trans region (child_table d) r r' -> directory d r' T ->
  exists es, scanned d (r_sector r') (table_sectors r') (Ok es) /\ Permutation (map record_of es) (map record_of (inorder T)).
