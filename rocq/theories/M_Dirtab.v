(** Model of xdvdfs-core/src/write/dirtab.rs. *)
From Verif Require Import M_Base M_Util M_Layout M_Avl M_Sector.
From Coq Require Import Init.Byte.

(** dirtab.rs:14-19 [DirectoryEntryTableWriter]. *)
Record writer := mkWriter { w_table : avl edata; w_size : option N }.

(** [Default]. *)
Definition writer_default : writer := mkWriter avl_default None.

(** dirtab.rs:21-26 [FileListingEntry]. *)
Record listing_entry := mkListing { l_name : str; l_sector : N; l_size : N; l_is_dir : bool }.

(** dirtab.rs:28-31 [DirectoryEntryTableDiskRepr]. *)
Record disk_table := mkDiskTable { entry_table : list byte; file_listing : list listing_entry }.

(** The AVL tree has no errors of its own. *)
Definition lift {E A} (r : res Empty_set A) : res E A :=
  match r with Ok a => Ok a | Err e => match e with end | Panic p => Panic p | OutOfFuel => OutOfFuel end.

(** dirtab.rs:33-41 [sector_align]. *)
Definition sector_align {E} (m : build) (offset incr : N) : res E N :=
  let* used := required_sectors m offset in
  let* needed := required_sectors m (offset + incr)%N in
  if ((0 <? offset mod SECTOR_SIZE) && (used <? needed))%N
  then Ok (SECTOR_SIZE - offset mod SECTOR_SIZE)%N
  else Ok 0%N.

(** dirtab.rs:44-71 [add_node]. [ArrayString<256>::from] fails above 256 bytes of
    UTF-8, [try_into::<u8>] above 255. *)
Definition add_node (w : writer) (name : str) (size attributes : N) : res fserr writer :=
  if (256 <? utf8_len name)%N then Err FileNameTooLong
  else if (255 <? utf8_len name)%N then Err FileNameTooLong
  else
    let dirent := mkEdata (mkDdata (mkRegion 0 size) attributes (utf8_len name)) name in
    let* (t, inserted) := lift (insert edata_cmp (w_table w) dirent) in
    if inserted then Ok (mkWriter t None) else Err DuplicateFileName.

(** dirtab.rs:73-78 [add_dir]: u32 arithmetic. *)
Definition add_dir (m : build) (w : writer) (name : str) (size : N) : res fserr writer :=
  let* size := u32_add m size ((2048 - size mod 2048) mod 2048)%N in
  add_node w name size ATTR_DIR.

(** dirtab.rs:80-83 [add_file]. *)
Definition add_file (w : writer) (name : str) (size : N) : res fserr writer :=
  add_node w name size ATTR_FILE.

(** avl.rs:405-412 [preorder_iter] as the sequence of elements. *)
Definition preorder_data (t : avl edata) : res fserr (list edata) :=
  let* is := lift (preorder_indices t) in
  mapM (fun i => let* n := index (tree t) i in Ok (data n)) is.

(** dirtab.rs:85-97 [compute_size]: u32 fold with early exit. *)
Definition size_step (m : build) (acc : N) (x : edata) : res fserr N :=
  let* disk_len := len_on_disk x in
  let* a := u32_add m acc disk_len in
  let* adj := sector_align m acc disk_len in
  u32_add m a adj.

Definition compute_size (m : build) (w : writer) : res fserr writer :=
  let* l := preorder_data (w_table w) in
  let* s := foldM (size_step m) 0%N l in
  Ok (mkWriter (w_table w) (Some s)).

(** avl.rs [backing_vec().is_empty()]. *)
Definition table_is_empty (w : writer) : bool :=
  match tree (w_table w) with [] => true | _ => false end.

(** dirtab.rs:99-109 [dirtab_size]. *)
Definition dirtab_size {E} (w : writer) : res E N :=
  if table_is_empty w then Ok 2048%N else unwrap (w_size w).

(** [rotate_right(1)]. *)
Definition rotate_right1 {A} (l : list A) : list A :=
  match rev l with [] => [] | x :: r => x :: rev r end.

(** dirtab.rs:155-169, the loop [for i in 1..offsets.len()]; [k] iterations are
    left. *)
Fixpoint offsets_loop (m : build) (k i : nat) (final : N) (offs : list N) : res fserr (list N) :=
  match k with
  | O => Ok offs
  | S k' =>
      let* a := index offs i in
      let* b := index offs (i - 1) in
      let v := (a + b)%N in
      let* next_size := (if Nat.eqb (i + 1) (length offs) then Ok final else index offs (i + 1)) in
      let* adj := sector_align m v next_size in
      let v := (v + adj)%N in
      let* _ := rassert (v mod 4 =? 0)%N in
      offsets_loop m k' (S i) final (upd offs i v)
  end.

(** dirtab.rs:135-169: offsets of the entries. *)
Definition compute_offsets (m : build) (lens : list N) : res fserr (list N) :=
  let offs := rotate_right1 lens in
  let* final := index offs 0 in
  offsets_loop m (length offs - 1) 1 final (upd offs 0 0%N).

(** [.map(|idx| offsets[idx] / 4).unwrap_or_default().try_into::<u16>()]. *)
Definition child_offset (offs : list N) (o : option nat) : res fserr N :=
  let* v := (match o with Some i => let* x := index offs i in Ok (x / 4)%N | None => Ok 0%N end) in
  try_into 65536 TooManyDirectoryEntries v.

(** dirtab.rs:174-225, the body of the serialization loop. State: bytes written
    so far, listing, allocator. *)
Definition disk_step (m : build) (offs : list N) (st : list byte * list listing_entry * N)
    (item : nat * node edata) : res fserr (list byte * list listing_entry * N) :=
  let '(bytes, listing, nf) := st in
  let (idx, n) := item in
  let* name := encode_name (data n) in
  let d := x_node (data n) in
  let* l := child_offset offs (left_node n) in
  let* r := child_offset offs (right_node n) in
  let* (nf, sector) := allocate_contiguous m nf (r_size (d_region d)) in
  let dirent := mkDnode l r (mkDdata (mkRegion sector (r_size (d_region d))) (d_attrs d) (len name)) in
  let listing := listing ++ [mkListing (x_name (data n)) sector (r_size (d_region d)) (attr_directory (d_attrs d))] in
  let ser := dnode_ser dirent in
  let size := (len ser + len name)%N in
  let* _ := rassert (len ser =? 0xe)%N in
  let* off := index offs idx in
  let bytes := (if (len bytes <? off)%N then bytes ++ fill (off - len bytes) xff else bytes) in
  let* _ := rassert (len bytes =? off)%N in
  let bytes := bytes ++ ser ++ name in
  let bytes := (if (0 <? size mod 4)%N then bytes ++ fill (4 - size mod 4) xff else bytes) in
  Ok (bytes, listing, nf).

(** [iter().enumerate()]. *)
Definition enumerate {A} (l : list A) : list (nat * A) := combine (seq 0 (length l)) l.

(** dirtab.rs:120-241 [disk_repr]. Also returns the allocator. *)
Definition disk_repr (m : build) (w : writer) (nf : N) : res fserr (disk_table * N) :=
  if table_is_empty w then Ok (mkDiskTable (fill 2048 xff) [], nf)
  else
    let* t := lift (reorder_backing_preorder (w_table w)) in
    let* lens := mapM (fun n => len_on_disk (data n)) (tree t) in
    match lens with
    | [] => Ok (mkDiskTable [] [], nf)
    | _ =>
        let* offs := compute_offsets m lens in
        let* (bytes, listing, nf) := foldM (disk_step m offs) ([], [], nf) (enumerate (tree t)) in
        let* _ := (match w_size w with
                   | Some s => rassert (len bytes mod u32_modulus =? s)%N
                   | None =>
                       let* w' := compute_size m (mkWriter t None) in
                       rassert (match w_size w' with Some s => len bytes mod u32_modulus =? s | None => false end)%N
                   end) in
        let* _ := rassert (0 <? len bytes)%N in
        let bytes := bytes ++ fill ((2048 - len bytes mod 2048) mod 2048) xff in
        Ok (mkDiskTable bytes listing, nf)
    end.
