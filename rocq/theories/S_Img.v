(** Specification vocabulary for packing (C14-C24). *)
From Verif Require Import M_Base M_Util M_Layout M_Read M_Img S_Avl S_Codec S_Table S_Read.
From Coq Require Import Init.Byte Permutation.
Local Open Scope N_scope.

(** [t'] is found at path [p] of the tree [t]. *)
Inductive at_path : ftree -> path -> ftree -> Prop :=
| at_here t : at_path t [] t
| at_child cs n t p t' : In (n, t) cs -> at_path t p t' -> at_path (FDir cs) (n :: p) t'.

Definition every_dir (P : list (str * ftree) -> Prop) (t : ftree) : Prop :=
  forall p cs, at_path t p (FDir cs) -> P cs.
Definition every_file (P : list byte -> Prop) (t : ftree) : Prop :=
  forall p b, at_path t p (FFile b) -> P b.

(** A host file system has one entry per name. *)
Definition proper (t : ftree) : Prop := every_dir (fun cs => NoDup (map fst cs)) t.

(** Sectors needed for the tree, from above: a table takes at most one sector per
    entry, an empty table one sector. *)
Fixpoint budget (t : ftree) : N :=
  match t with
  | FFile b => sectors (len b)
  | FDir cs => 1 + len cs + fold_right (fun c n => budget (snd c) + n) 0 cs
  end.

(** Sizes for which no 32-bit counter of the writer overflows. *)
Definition small (t : ftree) : Prop :=
  every_dir (fun cs => len cs <= 7000000) t /\ 33 + budget t < u32_modulus.

(** A listing describes the children. *)
Definition lists_as (e : fentry) (c : str * ftree) : Prop :=
  f_name e = fst c /\ match snd c with
                      | FFile b => f_type e = TFile /\ f_len e = len b
                      | FDir _ => f_type e = TDirectory
                      end.

(** The file system shows the tree. *)
Definition presents {D} (fs : fsys D) (t : ftree) : Prop :=
  forall p cs, at_path t p (FDir cs) -> exists es, read_dir fs p = Ok es /\ Forall2 lists_as es cs.

(** Copying a whole file into a growable file writes its bytes. *)
Definition copies (fs : fsys (list byte)) (t : ftree) : Prop :=
  forall p b img off, at_path t p (FFile b) ->
    copy_in fs p img 0 off (len b) = (file_write img off b, Ok (len b)).

Definition is_fdir (t : ftree) : bool := match t with FDir _ => true | FFile _ => false end.

(** The device holds the tree [t] in region [r]: the data of a file, or the table
    of a directory whose entries are exactly the children. *)
Inductive holds (d : dev) : ftree -> region -> Prop :=
| holds_file b r : r_size r = len b -> (b <> [] -> d (2048 * r_sector r) (len b) = Ok b) -> holds d (FFile b) r
| holds_dir cs r T es : directory d r T -> Permutation es (inorder T) ->
    Forall2 (fun c e => name_str e = fst c /\ is_dir e = is_fdir (snd c) /\ holds d (snd c) (region_of e)) cs es ->
    holds d (FDir cs) r.

(** The device is an image of the tree [t]. *)
Definition image_holds (d : dev) (t : ftree) : Prop :=
  exists b r, d 65536 2048 = Ok b /\ descriptor b r /\ holds d t r.

(** What is wrong with a tree that cannot be packed. The last case depends on the
    size of the table that the writer builds. *)
Definition encodable_char (c : N) : Prop := exists b, decode_byte b = c.
Definition entry_in (t : ftree) (n : str) (s : ftree) : Prop :=
  exists p cs, at_path t p (FDir cs) /\ In (n, s) cs.

(** The table of a directory with these children has unpadded size [s]. *)
Definition table_size (m : build) (cs : list (str * ftree)) (s : N) : Prop :=
  exists xs w w', map i_name xs = map fst cs
    /\ add_items m xs = Ok w /\ M_Dirtab.compute_size m w = Ok w' /\ @M_Dirtab.dirtab_size fserr w' = Ok s.

Definition reason (m : build) (t : ftree) (e : fserr) : Prop :=
  match e with
  | FileNameTooLong => exists n s, entry_in t n s /\ 255 < utf8_len n
  | DuplicateFileName => exists p cs n1 n2, at_path t p (FDir cs) /\ In n1 (map fst cs) /\ In n2 (map fst cs) /\ n1 <> n2 /\ same_name n1 n2
  | WStringEncodingError => exists n s c, entry_in t n s /\ In c n /\ ~ encodable_char c
  | FileTooLarge => exists p b, at_path t p (FFile b) /\ u32_modulus <= len b
  | TooManyDirectoryEntries => exists p cs s, at_path t p (FDir cs) /\ table_size m cs s /\ 262144 < s
  end.

(** ... and a tree that can. *)
Definition representable (m : build) (t : ftree) : Prop :=
  (forall n s, entry_in t n s -> utf8_len n <= 255 /\ forall c, In c n -> encodable_char c)
  /\ every_dir (fun cs => forall n1 n2, In n1 (map fst cs) -> In n2 (map fst cs) -> same_name n1 n2 -> n1 = n2) t
  /\ every_file (fun b => len b < u32_modulus) t
  /\ every_dir (fun cs => forall s, table_size m cs s -> s <= 262144) t.

(** ** Packing a source tree *)
(** A host directory whose sizes fit the counters of the writer. *)
Definition source (t : ftree) : Prop := is_fdir t = true /\ proper t /\ small t.

(** [img] is the result of a successful run onto an empty file. *)
Definition packs (m : build) (t : ftree) (img : list byte) : Prop :=
  exists fs fuel evs evs', presents fs t /\ copies fs t
    /\ create_xdvdfs_image fuel m file_wdev fs ([], evs) = ((img, evs'), Ok tt).

(** Components, in any ASCII case, that lead to an entry of the tree. *)
Inductive names : ftree -> list str -> str -> ftree -> Prop :=
| nm_last cs s n t : In (n, t) cs -> same_name s n -> names (FDir cs) [s] n t
| nm_step cs s n cs' segs n' t : In (n, FDir cs') cs -> same_name s n -> names (FDir cs') segs n' t ->
    names (FDir cs) (s :: segs) n' t.

(** Components that lead nowhere. *)
Inductive missing : ftree -> list str -> rerr -> Prop :=
| ms_absent cs s segs : (forall n t, In (n, t) cs -> ~ same_name s n) -> missing (FDir cs) (s :: segs) DoesNotExist
| ms_file cs s n b segs : In (n, FFile b) cs -> same_name s n -> segs <> [] -> missing (FDir cs) (s :: segs) IsNotDirectory
| ms_step cs s n cs' segs e : In (n, FDir cs') cs -> same_name s n -> missing (FDir cs') segs e -> missing (FDir cs) (s :: segs) e.

(** The rows of a recursive listing: path of the parent, name, and the size of a
    file or [None] for a directory. *)
Definition row_size (t : ftree) : option N := match t with FFile b => Some (len b) | FDir _ => None end.
Fixpoint rows (p : str) (t : ftree) : list (str * str * option N) :=
  match t with
  | FFile _ => []
  | FDir cs => map (fun c => (p, fst c, row_size (snd c))) cs ++ concat (map (fun c => rows (p ++ [47] ++ fst c) (snd c)) cs)
  end.
Definition entry_row (x : str * dentry) : str * str * option N :=
  (fst x, name_str (snd x), if is_dir (snd x) then None else Some (r_size (region_of (snd x)))).

(** Same paths, kinds, sizes and contents, whatever the order of the entries. *)
Inductive same_tree : ftree -> ftree -> Prop :=
| same_file b : same_tree (FFile b) (FFile b)
| same_dir cs ds ds' : Permutation ds ds' -> Forall2 (fun c d => fst c = fst d /\ same_tree (snd c) (snd d)) cs ds' ->
    same_tree (FDir cs) (FDir ds).

(** The tree [t] can be read back from the device: every path, in any spelling,
    leads to an entry of the right name and kind, and files have their bytes. *)
Definition readable (d : dev) (t : ftree) : Prop :=
  exists v, read_volume d = Ok v /\
  forall segs path n t', names t segs n t' -> path_of segs path ->
  exists e, returns (fun fuel => walk_path fuel d (v_root v) path) (Ok e)
    /\ name_str e = n /\ is_dir e = is_fdir t'
    /\ forall b, t' = FFile b -> r_size (region_of e) = len b /\ read_data_all d (d_dirent (e_node e)) = Ok b.

(** The disk region found under the path [p], starting from the root table. *)
Definition region_at (d : dev) (root : region) (p : path) (r : region) : Prop :=
  p = [] /\ r = root \/ exists e, lookup d root p (Ok e) /\ r = region_of e.

(** Entries without the place where they were found. *)
Definition record_of (e : dentry) : dnode * list byte := (e_node e, e_name e).

(** ** Image geometry *)
Definition byte_at (img : list byte) (i : N) : byte := nth (N.to_nat i) img x00.

(** The bytes of a region that may be used: the contents of a file, or the whole
    sectors of a directory table. *)
Definition extent (t : ftree) (r : region) : N :=
  match t with FFile _ => r_size r | FDir _ => 2048 * sectors (r_size r) end.

(** ** Interrupted runs *)
(** A growable file that accepts only the next [k] bytes: the write that would
    exceed them is torn and fails. *)
Definition crash_write (s : list byte * N) (off : N) (b : list byte) : (list byte * N) * bool :=
  if len b <=? snd s then ((file_write (fst s) off b, snd s - len b), true)
  else ((file_write (fst s) off (firstn (N.to_nat (snd s)) b), 0), false).
Definition crash_wdev (e : ioerr) : wdev (list byte * N) :=
  mkWdev _ (fun s off b => let (s', ok) := crash_write s off b in (s', if ok then Ok tt else Err e))
         (fun s => (s, Ok (len (fst s)))).
(** Copying a file is interrupted in the same way. *)
Definition crash_copies (fs : fsys (list byte * N)) (t : ftree) : Prop :=
  forall p b s off, at_path t p (FFile b) ->
    exists e, copy_in fs p s 0 off (len b) = (let (s', ok) := crash_write s off b in (s', if ok then Ok (len b) else Err e)).

(** ** Progress events *)
Definition is_dir_added (e : event) : bool := match e with EDirAdded _ _ => true | _ => false end.
Definition is_file_added (e : event) : bool := match e with EFileAdded _ _ => true | _ => false end.
