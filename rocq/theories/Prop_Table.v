(** Properties C09-C13: directory tables (write/dirtab.rs) and sector allocation
    (write/sector.rs). *)
From Verif Require Import M_Base M_Util M_Layout M_Avl M_Sector M_Dirtab S_Avl S_Table P_Base P_Table.
From Coq Require Import Init.Byte Permutation.
Local Open Scope N_scope.

(** C09 *)
Theorem c09_table_layout_is_legal :
  forall m xs w w' nf t nf',
  add_items m xs = Ok w -> compute_size m w = Ok w' -> disk_repr m w' nf = Ok (t, nf') ->
  in_range nf xs -> xs <> [] ->
  exists D : dtree pent,
    Permutation (map p_item (inorder D)) xs
    /\ strictly_sorted item_cmp (map p_item (inorder D))
    /\ records (entry_table t) D
    /\ legal_layout (entry_table t) (preorder D)
    /\ map p_sector (preorder D) = starts nf (map size_of (map p_item (preorder D)))
    /\ file_listing t = map (fun e => mkListing (i_name (p_item e)) (p_sector e) (size_of (p_item e)) (i_dir (p_item e))) (preorder D)
    /\ nf' = nf + total (map size_of xs)
    /\ exists s e, @dirtab_size fserr w' = Ok s /\ nth_error (preorder D) (length xs - 1) = Some e
        /\ p_off e + rec_len (p_item e) <= s < p_off e + rec_len (p_item e) + 4 /\ s mod 4 = 0
        /\ s <= len (entry_table t) < s + 2048.
Proof. exact c09_lemma. Qed.
Print Assumptions c09_table_layout_is_legal.

(** An empty directory is one sector of 0xff. *)
Theorem c09_empty_table :
  forall m nf,
  exists w', compute_size m writer_default = Ok w' /\ @dirtab_size fserr w' = Ok 2048
    /\ disk_repr m w' nf = Ok (mkDiskTable (fill 2048 xff) [], nf).
Proof. exact empty_table. Qed.
Print Assumptions c09_empty_table.

(** Three entries; the third does not fit into the rest of the first sector when
    the second is long enough. *)
Definition c09_items : list item :=
  [mkItem [98] 5000 false; mkItem [65; 66] 10 true; mkItem [99] 0 false].

Example c09_example :
  exists w w' t, add_items Debug c09_items = Ok w /\ compute_size Debug w = Ok w' /\ in_range 34 c09_items
    /\ disk_repr Debug w' 34 = Ok (t, 39) /\ @dirtab_size fserr w' = Ok 48
    /\ slice (entry_table t) 0 48 =
       [x04; x00; x08; x00; x22; x00; x00; x00; x88; x13; x00; x00; x20; x01; x62; xff;
        x00; x00; x00; x00; x25; x00; x00; x00; x00; x08; x00; x00; x10; x02; x41; x42;
        x00; x00; x00; x00; x26; x00; x00; x00; x00; x00; x00; x00; x20; x01; x63; xff].
Proof. do 3 eexists. ssplit; [vm_compute; reflexivity|vm_compute; reflexivity| |vm_compute; reflexivity|vm_compute; reflexivity|vm_compute; reflexivity].
  repeat constructor. Qed.

(** C10 *)
Theorem c10_child_pointers_are_exact :
  forall m xs w w' nf t nf',
  add_items m xs = Ok w -> compute_size m w = Ok w' -> disk_repr m w' nf = Ok (t, nf') ->
  in_range nf xs -> xs <> [] ->
  exists D : dtree pent,
    Permutation (map p_item (inorder D)) xs /\ records (entry_table t) D
    /\ (forall l e r c cl e' cr, subtree (Node l e r) D -> c = l \/ c = r -> c = Node cl e' cr ->
          4 * child_ptr c = p_off e' /\ 0 < child_ptr c < 65535)
    /\ (exists l e r, D = Node l e r /\ p_off e = 0).
Proof. exact c10_lemma. Qed.
Print Assumptions c10_child_pointers_are_exact.

(** C11 *)
Theorem c11_disk_repr_total :
  forall m xs w w' nf,
  add_items m xs = Ok w -> compute_size m w = Ok w' -> in_range nf xs ->
  exists s, @dirtab_size fserr w' = Ok s
    /\ (s <= 262144 -> exists t nf', disk_repr m w' nf = Ok (t, nf'))
    /\ (262144 < s -> disk_repr m w' nf = Err TooManyDirectoryEntries).
Proof. exact disk_repr_total. Qed.
Print Assumptions c11_disk_repr_total.

(** Adding entries and computing the size never panic either, and fail exactly
    for the reason reported. *)
Theorem c11_adding_entries_total :
  forall m xs, Forall (fun x => i_size x < u32_modulus /\ size_of x < u32_modulus) xs ->
  (exists w, add_items m xs = Ok w /\ distinct xs /\ Forall (fun x => utf8_len (i_name x) < 256) xs)
  \/ (add_items m xs = Err FileNameTooLong /\ exists x, In x xs /\ 255 < utf8_len (i_name x))
  \/ (add_items m xs = Err DuplicateFileName /\ ~ distinct xs).
Proof. exact add_items_outcomes. Qed.
Print Assumptions c11_adding_entries_total.

Theorem c11_compute_size_total :
  forall m xs w, add_items m xs = Ok w ->
  Forall (fun x => i_size x < u32_modulus /\ size_of x < u32_modulus) xs -> 544 * len xs < u32_modulus ->
  (exists w', compute_size m w = Ok w' /\ Forall (fun x => exists bs, decode_1252 bs = i_name x) xs)
  \/ (compute_size m w = Err WStringEncodingError /\ exists x c, In x xs /\ In c (i_name x) /\ forall b, decode_byte b <> c).
Proof. exact compute_size_outcomes. Qed.
Print Assumptions c11_compute_size_total.

(** Nine entries with 255-byte names: seven fill the first sector up to a gap. *)
Definition c11_items : list item := map (fun i => mkItem ((65 + N.of_nat i) :: repeat 97 254) 0 false) (seq 0 9).

Example c11_example :
  match add_items Release c11_items with
  | Ok w => match compute_size Release w with
            | Ok w' => match disk_repr Release w' 33 with
                       | Ok (t, nf') => @dirtab_size fserr w' = Ok 2592 /\ len (entry_table t) = 4096 /\ nf' = 42
                       | _ => False
                       end
            | _ => False
            end
  | _ => False
  end.
Proof. vm_compute. auto. Qed.

(** C12: debug builds, and release builds as long as the sectors fit 32 bits. *)
Theorem c12_regions_are_disjoint :
  forall m sizes ss nf',
  allocs m allocator_default sizes = Ok (ss, nf') ->
  (m = Debug \/ (33 + total sizes < u32_modulus /\ Forall (fun n => n < 2048 * (u32_modulus - 1)) sizes)) ->
  length ss = length sizes
  /\ (forall i s n, nth_error ss i = Some s -> nth_error sizes i = Some n ->
        33 <= s /\ n <= 2048 * sectors n /\ s + sectors n <= nf' /\ nf' < u32_modulus)
  /\ (forall s, nth_error ss 0 = Some s -> s = 33)
  /\ (forall i s n s', nth_error ss i = Some s -> nth_error sizes i = Some n -> nth_error ss (S i) = Some s' ->
        s' = s + sectors n)
  /\ (forall i j s n s', (i < j)%nat -> nth_error ss i = Some s -> nth_error sizes i = Some n -> nth_error ss j = Some s' ->
        s + sectors n <= s').
Proof. exact c12_lemma. Qed.
Print Assumptions c12_regions_are_disjoint.

Example c12_example : allocs Debug allocator_default [0; 1; 2048; 2049; 70000] = Ok ([33; 34; 35; 36; 38], 73).
Proof. reflexivity. Qed.

(** C13: a debug build panics on overflow ... *)
Theorem c13_overflow_detected_debug_partial :
  forall sizes, 33 + total sizes >= u32_modulus -> exists p, allocs Debug allocator_default sizes = Panic p.
Proof. exact c13_lemma. Qed.
Print Assumptions c13_overflow_detected_debug_partial.

Example c13_example : allocs Debug allocator_default [8796093022207 - 67584; 2048; 2048] = Panic POverflow.
Proof. reflexivity. Qed.

(** ... but a release build wraps around and hands out overlapping regions. *)
Theorem c13_overflow_detected_refuted :
  exists sizes s1 s2 s3 nf', allocs Release allocator_default sizes = Ok ([s1; s2; s3], nf')
    /\ nth_error sizes 0 = Some 2048 /\ nth_error sizes 2 = Some 69632 /\ s1 = 33 /\ s3 = 0 /\ s3 + 34 = s1 + 1.
Proof. exact wrap_witness. Qed.
Print Assumptions c13_overflow_detected_refuted.
