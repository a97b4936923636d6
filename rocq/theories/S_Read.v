(** Specification vocabulary for reading images (C25-C33). *)
From Verif Require Import M_Base M_Util M_Layout M_Read S_Avl S_Codec.
From Coq Require Import Init.Byte Strings.String Strings.Byte.
Local Open Scope N_scope.

(** A device returns as many bytes as were asked for, or fails. *)
Definition lawful (d : dev) : Prop := forall o n bs, d o n = Ok bs -> len bs = n.
(** A device that does not panic (every device except a too short byte slice). *)
Definition calm (d : dev) : Prop := forall o n, (exists bs, d o n = Ok bs) \/ (exists e, d o n = Err e).

Definition magic : list byte := list_byte_of_string "MICROSOFT*XBOX*MEDIA".

(** The 2048 bytes of a volume descriptor sector with root table [r]. *)
Definition descriptor (b : list byte) (r : region) : Prop :=
  len b = 2048 /\ bytes_at b 0 magic /\ bytes_at b 2028 magic
  /\ field b 20 4 (r_sector r) /\ field b 24 4 (r_size r)
  /\ r_sector r < u32_modulus /\ r_size r < u32_modulus.

(** A volume descriptor is found at byte [base] + 65536 of the device. *)
Definition volume_at (d : dev) (base : N) : Prop :=
  exists b r, d (65536 + base) 2048 = Ok b /\ descriptor b r.

(** The directory entry [e] is stored at its offset. *)
Definition stored (d : dev) (e : dentry) : Prop :=
  exists hdr name,
    d (e_offset e) 14 = Ok hdr /\ hdr <> fill 14 xff /\ hdr <> fill 14 x00
    /\ field hdr 0 2 (d_left (e_node e)) /\ d_left (e_node e) < 65536
    /\ field hdr 2 2 (d_right (e_node e)) /\ d_right (e_node e) < 65536
    /\ field hdr 4 4 (r_sector (d_region (d_dirent (e_node e)))) /\ r_sector (d_region (d_dirent (e_node e))) < u32_modulus
    /\ field hdr 8 4 (r_size (d_region (d_dirent (e_node e)))) /\ r_size (d_region (d_dirent (e_node e))) < u32_modulus
    /\ field hdr 12 1 (d_attrs (d_dirent (e_node e))) /\ d_attrs (d_dirent (e_node e)) < 256
    /\ field hdr 13 1 (len name) /\ d_namelen (d_dirent (e_node e)) = len name /\ len name < 256
    /\ d (e_offset e + 14) (len name) = Ok name
    /\ e_name e = name ++ fill (256 - len name) x00.

(** ... inside the table [r]. *)
Definition stored_in (d : dev) (r : region) (e : dentry) : Prop :=
  stored d e /\ 2048 * r_sector r <= e_offset e < 2048 * r_sector r + r_size r.

(** Equal up to ASCII case. *)
Definition same_name (a b : str) : Prop := map upper a = map upper b.

Definition is_dir (e : dentry) : bool := N.testbit (d_attrs (d_dirent (e_node e))) 4.
Definition region_of (e : dentry) : region := d_region (d_dirent (e_node e)).

(** Path syntax: leading slashes, components separated by slashes, at most one
    trailing slash. *)
Fixpoint join (segs : list str) : str :=
  match segs with
  | [] => []
  | [s] => s
  | s :: segs => s ++ [47] ++ join segs
  end.
Definition no_slash (s : str) : Prop := ~ In 47 s.
Definition path_of (segs : list str) (path : str) : Prop :=
  exists n trail, path = repeat 47 n ++ join segs ++ trail
    /\ Forall no_slash segs /\ segs <> [] /\ hd [] segs <> []
    /\ (trail = [] /\ last segs [] <> [] \/ trail = [47]).

(** The components of a path lead from table [r] to entry [e]. *)
Inductive leads (d : dev) : region -> list str -> dentry -> Prop :=
| leads_last r s e : stored_in d r e -> same_name s (name_str e) -> leads d r [s] e
| leads_step r s e segs e' : stored_in d r e -> same_name s (name_str e) -> is_dir e = true ->
    segs <> [] -> leads d (region_of e) segs e' -> leads d r (s :: segs) e'.

(** Table [r] stores the tree [t] from byte [o] of the table on. *)
Fixpoint tree_at (d : dev) (r : region) (o : N) (t : dtree dentry) : Prop :=
  match t with
  | Leaf => False
  | Node l e r' =>
      o < r_size r /\ e_offset e = 2048 * r_sector r + o /\ stored d e
      /\ match l with
         | Leaf => d_left (e_node e) = 0
         | _ => 0 < d_left (e_node e) < 65535 /\ tree_at d r (4 * d_left (e_node e)) l
         end
      /\ match r' with
         | Leaf => d_right (e_node e) = 0
         | _ => 0 < d_right (e_node e) < 65535 /\ tree_at d r (4 * d_right (e_node e)) r'
         end
  end.

(** A well-formed directory: a search tree in name order; an empty directory is
    a table that starts with a blank record. *)
Definition directory (d : dev) (r : region) (t : dtree dentry) : Prop :=
  match t with
  | Leaf => 0 < r_size r /\ (d (2048 * r_sector r) 14 = Ok (fill 14 xff) \/ d (2048 * r_sector r) 14 = Ok (fill 14 x00))
  | _ => tree_at d r 0 t
  end
  /\ strictly_sorted (fun a b => cmp_ignore_case_utf8 (name_str a) (name_str b)) (inorder t).

(** What looking up the components [segs] from table [r] must give. *)
Inductive lookup (d : dev) : region -> list str -> res rerr dentry -> Prop :=
| lk_empty r s segs : r_size r = 0 -> lookup d r (s :: segs) (Err DirectoryEmpty)
| lk_absent r t s segs : directory d r t -> (forall e, In e (inorder t) -> ~ same_name s (name_str e)) ->
    lookup d r (s :: segs) (Err DoesNotExist)
| lk_found r t s e : directory d r t -> In e (inorder t) -> same_name s (name_str e) -> lookup d r [s] (Ok e)
| lk_file r t s e segs : directory d r t -> In e (inorder t) -> same_name s (name_str e) -> segs <> [] ->
    is_dir e = false -> lookup d r (s :: segs) (Err IsNotDirectory)
| lk_step r t s e segs o : directory d r t -> In e (inorder t) -> same_name s (name_str e) -> segs <> [] ->
    is_dir e = true -> lookup d (region_of e) segs o -> lookup d r (s :: segs) o.

(** "Eventually": the outcome for every large enough amount of fuel. *)
Definition returns {A} (f : nat -> A) (x : A) : Prop := exists n, forall fuel, (n <= fuel)%nat -> f fuel = x.
(** Never returns, whatever the fuel. *)
Definition diverges {E A} (f : nat -> res E A) : Prop := forall fuel, f fuel = OutOfFuel.

(** The recursive listing of a well-formed directory tree: every entry of the
    directory with the path of the directory, then those of its
    subdirectories. *)
Inductive tree_listing (d : dev) : str -> region -> list (str * dentry) -> Prop :=
| tl_empty p r : r_size r = 0 -> tree_listing d p r []
| tl_dir p r t l : directory d r t -> sub_listing d p (inorder t) l ->
    tree_listing d p r (map (fun e => (p, e)) (inorder t) ++ l)
with sub_listing (d : dev) : str -> list dentry -> list (str * dentry) -> Prop :=
| sl_nil p : sub_listing d p [] []
| sl_file p e es l : is_dir e = false -> sub_listing d p es l -> sub_listing d p (e :: es) l
| sl_dir p e es l l' : is_dir e = true -> tree_listing d (p ++ [47] ++ name_str e) (region_of e) l ->
    sub_listing d p es l' -> sub_listing d p (e :: es) (l ++ l').

(** Children lie behind their parents, as in every table this library writes. *)
Definition forward (d : dev) (r : region) : Prop :=
  forall e, stored_in d r e ->
    (d_left (e_node e) <> 0 -> e_offset e < 2048 * r_sector r + 4 * d_left (e_node e))
    /\ (d_right (e_node e) <> 0 -> e_offset e < 2048 * r_sector r + 4 * d_right (e_node e)).

(** Devices are total functions: fuel is not a device outcome. *)
Definition real (d : dev) : Prop := forall o n, d o n <> OutOfFuel.

Definition terminates {E A} (f : nat -> res E A) : Prop := exists o, o <> OutOfFuel /\ returns f o.
