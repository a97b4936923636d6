(** Specification vocabulary for endless traversals (C32): pointers and directories
    as graphs. *)
From Verif Require Import M_Base M_Util M_Layout M_Read S_Read.
From Coq Require Import Relations.
Local Open Scope N_scope.

(** The entry at byte [o] of the table [r]. *)
Definition entry_at (d : dev) (r : region) (o : N) (e : dentry) : Prop :=
  stored_in d r e /\ e_offset e = 2048 * r_sector r + o.

(** ... has a child at byte [o'], which a listing visits. *)
Definition points (d : dev) (r : region) (o o' : N) : Prop :=
  exists e p, entry_at d r o e /\ (p = d_left (e_node e) \/ p = d_right (e_node e)) /\ p <> 0 /\ p <> 65535 /\ o' = 4 * p.
(** An entry that is its own descendant can be reached from the first one. *)
Definition cyclic_table (d : dev) (r : region) : Prop :=
  exists o, clos_refl_trans N (points d r) 0 o /\ clos_trans N (points d r) o o.

(** The directory with table [r'] is listed in the table [r]. *)
Definition subdir (d : dev) (r r' : region) : Prop :=
  exists o e, clos_refl_trans N (points d r) 0 o /\ entry_at d r o e /\ is_dir e = true /\ r' = region_of e.
(** A directory contains itself, or the table of a directory is cyclic. *)
Definition cyclic_tree (d : dev) (r : region) : Prop :=
  exists r', clos_refl_trans region (subdir d) r r' /\ (cyclic_table d r' \/ clos_trans region (subdir d) r' r').

(** The search for a name goes from byte [o] on to byte [o']: to the left for a
    smaller name, to the right for a greater one. *)
Definition seeks (d : dev) (r : region) (s : str) (o o' : N) : Prop :=
  exists e p, entry_at d r o e /\ p <> 0 /\ o' = 4 * p /\ o' < r_size r
    /\ (cmp_ignore_case_utf8 s (name_str e) = Lt /\ p = d_left (e_node e) \/ cmp_ignore_case_utf8 s (name_str e) = Gt /\ p = d_right (e_node e)).
(** The search for the components [segs] runs in circles, in the table [r] or below. *)
Inductive circles (d : dev) : region -> list str -> Prop :=
| circles_here r s segs o : clos_refl_trans N (seeks d r s) 0 o -> clos_trans N (seeks d r s) o o -> circles d r (s :: segs)
| circles_below r s segs o e : clos_refl_trans N (seeks d r s) 0 o -> entry_at d r o e -> same_name s (name_str e) -> is_dir e = true ->
    circles d (region_of e) segs -> circles d r (s :: segs).
