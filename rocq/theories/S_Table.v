(** Specification vocabulary for directory tables and allocation (C09-C13). *)
From Verif Require Import M_Base M_Layout M_Avl M_Sector M_Dirtab S_Avl.
From Coq Require Import Init.Byte.
Local Open Scope N_scope.

(** A caller's history: the entries it adds to a fresh table. *)
Record item := mkItem { i_name : str; i_size : N; i_dir : bool }.

Definition add_item (m : build) (w : writer) (x : item) : res fserr writer :=
  if i_dir x then add_dir m w (i_name x) (i_size x) else add_file w (i_name x) (i_size x).

Definition add_items (m : build) (xs : list item) : res fserr writer := foldM (add_item m) writer_default xs.

(** Number of sectors of a region: at least one. *)
Definition sectors (n : N) : N := if n =? 0 then 1 else (n + 2047) / 2048.

(** An entry as placed in a table: where its record starts in the table, where
    its data starts on disk, and what it is. *)
Record pent := mkPent { p_off : N; p_sector : N; p_item : item }.

Definition attrs_of (x : item) : N := if i_dir x then 16 else 32.

(** The on-disk size field: directories are rounded up to whole sectors. *)
Definition size_of (x : item) : N := if i_dir x then (i_size x + 2047) / 2048 * 2048 else i_size x.

(** Encoded name. *)
Definition name_of (x : item) (bs : list byte) : Prop := decode_1252 bs = i_name x.

Definition child_ptr (d : dtree pent) : N :=
  match d with Leaf => 0 | Node _ e _ => p_off e / 4 end.

(** The record of entry [e] with children [l], [r] is found in the table bytes:
    14-byte header followed by the encoded name. *)
Definition record_at (b : list byte) (e : pent) (l r : dtree pent) : Prop :=
  exists name, name_of (p_item e) name /\
    slice b (p_off e) (14 + len name)
    = dnode_ser (mkDnode (child_ptr l) (child_ptr r)
        (mkDdata (mkRegion (p_sector e) (size_of (p_item e))) (attrs_of (p_item e)) (len name))) ++ name
    /\ p_off e + 14 + len name <= len b.

Fixpoint records (b : list byte) (d : dtree pent) : Prop :=
  match d with
  | Leaf => True
  | Node l e r => record_at b e l r /\ records b l /\ records b r
  end.

(** Every entry below [d] other than its root. *)
Fixpoint tmap {A B} (f : A -> B) (d : dtree A) : dtree B :=
  match d with Leaf => Leaf | Node l x r => Node (tmap f l) (f x) (tmap f r) end.

(** Length of an entry without padding. *)
Definition rec_len (x : item) : N := 14 + N.of_nat (length (i_name x)).

Definition item_cmp (a b : item) : comparison := M_Util.cmp_ignore_case_utf8 (i_name a) (i_name b).

(** Starts of consecutive regions of the given sizes. *)
Fixpoint starts (from : N) (sizes : list N) : list N :=
  match sizes with [] => [] | n :: ns => from :: starts (from + sectors n) ns end.
Definition total (sizes : list N) : N := fold_right (fun n a => sectors n + a) 0 sizes.

(** [c] occurs in [d]. *)
Inductive subtree {T} : dtree T -> dtree T -> Prop :=
| sub_refl d : subtree d d
| sub_left c l x r : subtree c l -> subtree c (Node l x r)
| sub_right c l x r : subtree c r -> subtree c (Node l x r).

(** Limits under which no 32-bit counter of the writer overflows: sizes fit
    their fields, the table size fits 32 bits whatever the names, and the
    sectors fit 32 bits. *)
Definition in_range (nf : N) (xs : list item) : Prop :=
  Forall (fun x => i_size x < u32_modulus /\ size_of x < u32_modulus) xs
  /\ 544 * len xs < u32_modulus
  /\ nf + total (map size_of xs) < u32_modulus.

(** Legal layout of the entries [es] in the table bytes [b]. *)
Definition legal_layout (b : list byte) (es : list pent) : Prop :=
  (forall e, In e es -> p_off e mod 4 = 0
      /\ p_off e / 2048 = (p_off e + rec_len (p_item e) - 1) / 2048
      /\ p_off e + rec_len (p_item e) <= len b)
  /\ (forall i e1 e2, nth_error es i = Some e1 -> nth_error es (S i) = Some e2 ->
        p_off e1 + rec_len (p_item e1) <= p_off e2)
  /\ (forall p c, nth_error b p = Some c ->
        (forall e, In e es -> ~ (p_off e <= N.of_nat p < p_off e + rec_len (p_item e))) -> c = xff)
  /\ len b mod 2048 = 0 /\ 0 < len b.

(** A caller's sequence of allocations: the first sectors handed out, and the
    final state. *)
Definition allocs (m : build) (nf : N) (sizes : list N) : res Empty_set (list N * N) :=
  foldM (fun st n => let* (nf', s) := allocate_contiguous m (snd st) n in Ok (fst st ++ [s], nf')) ([], nf) sizes.

(** Names pairwise different up to ASCII case. *)
Fixpoint distinct (xs : list item) : Prop :=
  match xs with [] => True | x :: xs => (forall y, In y xs -> item_cmp x y <> Eq) /\ distinct xs end.

