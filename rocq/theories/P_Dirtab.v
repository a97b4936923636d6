(** Directory table writer (write/dirtab.rs): histories, sizes, serialized form. *)
From Verif Require Import M_Base M_Util M_Layout M_Avl M_Sector M_Dirtab P_Base P_Layout S_Avl S_Codec S_Table
  P_AvlTree P_Codec P_Place.
From Coq Require Import ZifyBool ZifyNat ZifyN Init.Byte Permutation Sorted.
Local Open Scope N_scope.

(** ** Rendering *)
Definition plen (r : list byte) : N := pad4 (len r).

Fixpoint render (e : N) (rs : list (list byte)) : list byte :=
  match rs with
  | [] => []
  | r :: rs =>
      fill (anext e (plen r) - e) xff ++ r ++ fill (plen r - len r) xff ++ render (anext e (plen r) + plen r) rs
  end.

Lemma plen_ge r : len r <= plen r.
Proof. apply pad4_spec. Qed.

Lemma render_app e a b : render e (a ++ b) = render e a ++ render (pend e (map plen a)) b.
Proof. revert e; induction a as [|r a IH]; intros e; cbn [app render map pend]; auto. rewrite IH, <- !app_assoc. reflexivity. Qed.

Lemma render_len e rs : e + len (render e rs) = pend e (map plen rs).
Proof.
  revert e; induction rs as [|r rs IH]; intros e; cbn [render map pend]; [rewrite len_nil; lia|].
  rewrite !len_app, !len_fill, <- IH. pose proof (anext_ge e (plen r)). pose proof (plen_ge r). lia.
Qed.

Lemma render_slice e rs i r o pre post : nth_error rs i = Some r -> nth_error (place e (map plen rs)) i = Some o ->
  len pre = e -> slice (pre ++ render e rs ++ post) o (len r) = r.
Proof.
  revert e i pre; induction rs as [|r0 rs IH]; intros e i pre Hr Ho Hpre; [destruct i; discriminate|].
  pose proof (anext_ge e (plen r0)). pose proof (plen_ge r0).
  destruct i as [|i]; cbn [nth_error place map render] in *.
  - injection Hr as ->. injection Ho as <-.
    rewrite <- !app_assoc, (app_assoc pre). apply slice_mid; auto. rewrite len_app, len_fill. lia.
  - rewrite <- !app_assoc, (app_assoc pre), (app_assoc (pre ++ _)), (app_assoc ((pre ++ _) ++ _)).
    eapply IH; eauto. rewrite !len_app, !len_fill. lia.
Qed.

Lemma nth_fill {A} n (x : A) i : nth_error (fill n x) i = if (N.of_nat i <? n) then Some x else None.
Proof.
  unfold fill. destruct (N.ltb_spec (N.of_nat i) n).
  - apply nth_error_repeat. lia.
  - apply nth_error_None. rewrite repeat_length. lia.
Qed.

Lemma fill_length {A} n (x : A) : length (fill n x) = N.to_nat n.
Proof. apply repeat_length. Qed.

(** Everything outside the records is filler. *)
Lemma render_gap e rs p : (forall i r o, nth_error rs i = Some r -> nth_error (place e (map plen rs)) i = Some o ->
    ~ (o <= e + N.of_nat p < o + len r)) ->
  forall b, nth_error (render e rs) p = Some b -> b = xff.
Proof.
  revert e p; induction rs as [|r0 rs IH]; intros e p Hout b Hb; [destruct p; discriminate|].
  pose proof (anext_ge e (plen r0)) as Hge. pose proof (plen_ge r0) as Hpl. cbn [render] in Hb.
  set (a := anext e (plen r0)) in *.
  pose proof (Hout 0%nat r0 a eq_refl eq_refl) as H0.
  destruct (Nat.lt_ge_cases p (N.to_nat (a - e))).
  - rewrite nth_error_app1 in Hb by (rewrite fill_length; lia).
    rewrite nth_fill in Hb. destruct (_ <? _); congruence.
  - rewrite nth_error_app2 in Hb by (rewrite fill_length; lia).
    rewrite fill_length in Hb.
    rewrite nth_error_app2 in Hb by (unfold len in *; lia).
    destruct (Nat.lt_ge_cases (p - N.to_nat (a - e) - length r0) (N.to_nat (plen r0 - len r0))) as [Hl|Hl].
    + rewrite nth_error_app1 in Hb by (rewrite fill_length; auto).
      rewrite nth_fill in Hb. destruct (_ <? _); congruence.
    + rewrite nth_error_app2 in Hb by (rewrite fill_length; auto).
      rewrite fill_length in Hb.
      eapply IH; [|exact Hb].
      intros i r o Hr Ho Hin. apply (Hout (S i) r o Hr Ho). unfold len in *. lia.
Qed.

(** ** Trees with offsets and sectors *)
Fixpoint label (offs secs : list N) (k : nat) (d : dtree item) : dtree pent :=
  match d with
  | Leaf => Leaf
  | Node l x r => Node (label offs secs (k + 1) l) (mkPent (nth k offs 0) (nth k secs 0) x)
                       (label offs secs (k + 1 + size l) r)
  end.

Definition nm (x : item) : list byte := match encode_1252 (i_name x) with Some b => b | None => [] end.

Definition rec_bytes (e : pent) (l r : dtree pent) : list byte :=
  dnode_ser (mkDnode (child_ptr l) (child_ptr r)
        (mkDdata (mkRegion (p_sector e) (size_of (p_item e))) (attrs_of (p_item e)) (len (nm (p_item e))))) ++ nm (p_item e).

Fixpoint recs (d : dtree pent) : list (list byte) :=
  match d with Leaf => [] | Node l e r => rec_bytes e l r :: recs l ++ recs r end.

Definition edata_of (x : item) : edata :=
  mkEdata (mkDdata (mkRegion 0 (size_of x)) (attrs_of x) (utf8_len (i_name x))) (i_name x).

Definition lst (e : pent) : listing_entry :=
  mkListing (i_name (p_item e)) (p_sector e) (size_of (p_item e)) (i_dir (p_item e)).

Definition encodable (x : item) : Prop := utf8_len (i_name x) < 256 /\ exists bs, decode_1252 bs = i_name x.

Definition ilen (x : item) : N := pad4 (14 + len (i_name x)).

Lemma nm_spec x : encodable x -> decode_1252 (nm x) = i_name x /\ len (nm x) = len (i_name x)
  /\ len (nm x) < 256 /\ encode_name (edata_of x) = Ok (nm x).
Proof.
  intros (Hu & bs & Hbs). unfold nm. pose proof (proj2 (encode_1252_iff _ _) Hbs) as E. rewrite E.
  pose proof (encode_length _ _ E) as El. pose proof (utf8_len_ge (i_name x)). unfold len in *.
  assert (E' : encode_name (edata_of x) = Ok bs) by (apply encode_name_ok; auto).
  ssplit; auto; lia.
Qed.

Lemma ilen_ok x : encodable x -> plen_ok (ilen x).
Proof.
  intros H. destruct (nm_spec x H) as (_ & H1 & H2 & _). unfold ilen, plen_ok. rewrite <- H1.
  pose proof (pad4_spec (14 + len (nm x))). lia.
Qed.

Lemma len_on_disk_spec x : encodable x -> len_on_disk (edata_of x) = Ok (ilen x).
Proof.
  intros H. destruct (nm_spec x H) as (_ & H1 & H2 & H3). unfold len_on_disk. rewrite H3. cbn [bind].
  unfold ilen. rewrite H1. reflexivity.
Qed.

Lemma rec_bytes_len e l r : len (rec_bytes e l r) = 14 + len (nm (p_item e)).
Proof. unfold rec_bytes. rewrite len_app, dnode_ser_len. reflexivity. Qed.

Lemma recs_plen d : Forall encodable (map p_item (preorder d)) -> map plen (recs d) = map ilen (map p_item (preorder d)).
Proof.
  induction d as [|l IHl e r IHr]; auto. cbn [preorder recs map]. intros H. inversion H as [|? ? H1 H2]; subst.
  rewrite !map_app in *. apply Forall_app in H2 as [H2 H3]. rewrite IHl, IHr by auto. f_equal.
  unfold plen, ilen. rewrite rec_bytes_len. destruct (nm_spec _ H1) as (_ & -> & _). reflexivity.
Qed.

Lemma tmap_size {A B} (f : A -> B) d : size (tmap f d) = size d.
Proof. induction d as [|l IHl x r IHr]; cbn; congruence. Qed.
Lemma size_preorder {A} (d : dtree A) : length (preorder d) = size d.
Proof. induction d as [|l IHl x r IHr]; cbn; auto. rewrite app_length. lia. Qed.
Lemma tmap_preorder {A B} (f : A -> B) d : preorder (tmap f d) = map f (preorder d).
Proof. induction d as [|l IHl x r IHr]; cbn; auto. rewrite map_app. congruence. Qed.
Lemma tmap_inorder {A B} (f : A -> B) d : inorder (tmap f d) = map f (inorder d).
Proof. induction d as [|l IHl x r IHr]; cbn; auto. rewrite map_app. cbn. congruence. Qed.
Lemma label_items offs secs k d : tmap p_item (label offs secs k d) = d.
Proof. revert k; induction d as [|l IHl x r IHr]; intros k; cbn; auto. rewrite IHl, IHr. reflexivity. Qed.
Lemma label_preorder_items offs secs k d : map p_item (preorder (label offs secs k d)) = preorder d.
Proof. rewrite <- tmap_preorder, label_items. reflexivity. Qed.

(** Does every child offset in the subtree fit 16 bits. *)
Definition root_fits (offs : list N) (k : nat) (d : dtree item) : bool :=
  match d with Leaf => true | Node _ _ _ => nth k offs 0 / 4 <? 65536 end.
Fixpoint fits (offs : list N) (k : nat) (d : dtree item) : bool :=
  match d with
  | Leaf => true
  | Node l _ r => root_fits offs (k + 1) l && (root_fits offs (k + 1 + size l) r &&
                   (fits offs (k + 1) l && fits offs (k + 1 + size l) r))
  end.

Lemma foldM_app {E A S} (f : S -> A -> res E S) s a b :
  foldM f s (a ++ b) = let* s' := foldM f s a in foldM f s' b.
Proof. revert s; induction a as [|x a IH]; intros s; cbn; auto. destruct (f s x); cbn; auto. Qed.

Lemma seq_split_inv k a b l1 l2 : l1 ++ l2 = seq k (a + b) -> length l1 = a -> l1 = seq k a /\ l2 = seq (k + a) b.
Proof.
  rewrite seq_app. intros H Ha. split.
  - apply (f_equal (firstn a)) in H. rewrite !firstn_app, seq_length, Ha, Nat.sub_diag, !firstn_O, !app_nil_r in H.
    rewrite !firstn_all2 in H by (rewrite ?seq_length; lia). auto.
  - apply (f_equal (skipn a)) in H. rewrite !skipn_app, seq_length, Ha, Nat.sub_diag, !skipn_O in H.
    rewrite !skipn_all2 in H by (rewrite ?seq_length; lia). auto.
Qed.

Lemma link_size {T} ns p o (d : dtree T) ord : link ns p o d ord -> length ord = size d.
Proof. induction 1; cbn; auto. rewrite app_length. lia. Qed.

(** Structure of a node whose subtree is stored in preorder. *)
Lemma link_seq {T} ns p o (l r : dtree T) x k :
  link ns p o (Node l x r) (seq k (size (Node l x r))) ->
  exists n, o = Some k /\ nth_error ns k = Some n /\ data n = x
    /\ link ns (Some k) (left_node n) l (seq (k + 1) (size l))
    /\ link ns (Some k) (right_node n) r (seq (k + 1 + size l) (size r)).
Proof.
  intros H. remember (Node l x r) as d eqn:Ed. remember (seq k (size d)) as ord eqn:Eo.
  destruct H as [|p i n l' r' ol or_ Hn Hp Hl Hr Hh]; [discriminate|]. injection Ed as -> Ex ->.
  cbn [size seq] in Eo. injection Eo as -> Eo.
  apply seq_split_inv in Eo as (-> & ->); [|apply (link_size _ _ _ _ _ Hl)].
  exists n. replace (k + 1)%nat with (S k) by lia. ssplit; auto.
Qed.

Lemma link_root {T} ns p o (d : dtree T) k : link ns p o d (seq k (size d)) ->
  o = match d with Leaf => None | Node _ _ _ => Some k end.
Proof.
  intros H. destruct d as [|l x r].
  - inversion H; auto.
  - apply link_seq in H as (n & -> & _). reflexivity.
Qed.

Lemma label_ptr offs secs k d : child_ptr (label offs secs k d) = match d with Leaf => 0 | Node _ _ _ => nth k offs 0 / 4 end.
Proof. destruct d; reflexivity. Qed.

Lemma child_offset_spec ns p o offs secs k d : link ns p o (tmap edata_of d) (seq k (size d)) -> (k + size d <= length offs)%nat ->
  child_offset offs o = if root_fits offs k d then Ok (child_ptr (label offs secs k d)) else Err TooManyDirectoryEntries.
Proof.
  intros H Hk. rewrite <- (tmap_size edata_of) in H. apply link_root in H. subst o. unfold child_offset, try_into.
  destruct d as [|l x r]; [reflexivity|]. cbn [tmap root_fits label child_ptr p_off size] in *.
  rewrite (index_ok _ _ (nth k offs 0)) by (apply nth_error_nth'; lia). cbn [bind]. reflexivity.
Qed.

Lemma combine_firstn {A} (ns : list A) k n x : nth_error ns k = Some x ->
  combine (seq k (S n)) (firstn (S n) (skipn k ns)) = (k, x) :: combine (seq (k + 1) n) (firstn n (skipn (k + 1) ns)).
Proof.
  intros H. assert (skipn k ns = x :: skipn (k + 1) ns).
  { revert k H; induction ns as [|a ns IH]; intros [|k] H; cbn in *; try discriminate.
    - injection H as ->. reflexivity.
    - apply IH; auto. }
  rewrite H0. cbn [seq firstn combine]. replace (k + 1)%nat with (S k) by lia. reflexivity.
Qed.

Lemma combine_split {A} (ns : list A) k a b : (k + a <= length ns)%nat ->
  combine (seq k (a + b)) (firstn (a + b) (skipn k ns))
  = combine (seq k a) (firstn a (skipn k ns)) ++ combine (seq (k + a) b) (firstn b (skipn (k + a) ns)).
Proof.
  revert k; induction a as [|a IH]; intros k H.
  - cbn. replace (k + 0)%nat with k by lia. reflexivity.
  - destruct (nth_error ns k) as [x|] eqn:E; [|apply nth_error_None in E; lia].
    cbn [plus]. rewrite !(combine_firstn _ _ _ _ E). cbn [app]. f_equal. rewrite IH by lia.
    replace (k + 1 + a)%nat with (k + S a)%nat by lia. reflexivity.
Qed.

Lemma nth_seg {A} (l seg : list A) k dflt i : (forall j, (j < length seg)%nat -> nth_error l (k + j) = nth_error seg j) ->
  (i < length seg)%nat -> nth (k + i) l dflt = nth i seg dflt.
Proof.
  intros H Hi. specialize (H i Hi). destruct (nth_error seg i) as [x|] eqn:E; [|apply nth_error_None in E; lia].
  rewrite (nth_error_nth _ _ _ H), (nth_error_nth _ _ _ E). reflexivity.
Qed.

(** [seg l k s]: the list [s] occupies positions [k..] of [l]. *)
Definition seg {A} (l : list A) (k : nat) (s : list A) : Prop :=
  forall j, (j < length s)%nat -> nth_error l (k + j) = nth_error s j.

Lemma seg_app {A} (l : list A) k a b : seg l k (a ++ b) -> seg l k a /\ seg l (k + length a) b.
Proof.
  intros H. split; intros j Hj.
  - rewrite H by (rewrite app_length; lia). apply nth_error_app1; auto.
  - rewrite <- Nat.add_assoc, H by (rewrite app_length; lia). rewrite nth_error_app2 by lia. f_equal. lia.
Qed.

Lemma seg_cons {A} (l : list A) k a b : seg l k (a :: b) -> nth_error l k = Some a /\ seg l (k + 1) b.
Proof.
  intros H. split.
  - specialize (H 0%nat). cbn in H. rewrite Nat.add_0_r in H. apply H. lia.
  - apply (seg_app l k [a] b) in H as [_ H]. auto.
Qed.

Definition small_sizes (xs : list item) : Prop := Forall (fun x => size_of x < u32_modulus) xs.

(** ** The serialization loop *)
Lemma disk_fold m offs secs nodes d : forall k p o bytes listing nf,
  link nodes p o (tmap edata_of d) (seq k (size d)) ->
  Forall encodable (preorder d) -> small_sizes (preorder d) ->
  seg offs k (place (len bytes) (map ilen (preorder d))) ->
  seg secs k (starts nf (map size_of (preorder d))) ->
  (k + size d <= length nodes)%nat -> (k + size d <= length offs)%nat ->
  nf + total (map size_of (preorder d)) < u32_modulus ->
  foldM (disk_step m offs) (bytes, listing, nf) (combine (seq k (size d)) (firstn (size d) (skipn k nodes)))
  = if fits offs k d then
      let D := label offs secs k d in
      Ok (bytes ++ render (len bytes) (recs D), listing ++ map lst (preorder D), nf + total (map size_of (preorder d)))
    else Err TooManyDirectoryEntries.
Proof.
  induction d as [|l IHl x r IHr]; intros k p o bytes listing nf Hlink Henc Hsz Hoffs Hsecs Hkn Hko Hnf.
  - cbn. rewrite !app_nil_r, N.add_0_r. reflexivity.
  - assert (Es : size (Node l x r) = size (Node (tmap edata_of l) (edata_of x) (tmap edata_of r))) by (cbn; rewrite !tmap_size; auto).
    cbn [tmap] in Hlink. rewrite Es in Hlink. apply link_seq in Hlink as (n & -> & Hn & Hd & HL & HR).
    rewrite tmap_size in HL. rewrite (tmap_size edata_of l), (tmap_size edata_of r) in HR. cbn [preorder] in *.
    inversion Henc as [|? ? He1 He2]; subst. apply Forall_app in He2 as [He2 He3].
    inversion Hsz as [|? ? Hs1 Hs2]; subst. apply Forall_app in Hs2 as [Hs2 Hs3].
    cbn [map place starts] in Hoffs, Hsecs, Hnf |- *. rewrite !map_app in *. cbn [place starts] in *.
    apply seg_cons in Hoffs as [Ho Hoffs]. apply seg_cons in Hsecs as [Hse Hsecs].
    rewrite place_app in Hoffs. rewrite starts_app in Hsecs.
    apply seg_app in Hoffs as [HoL HoR]. apply seg_app in Hsecs as [HsL HsR].
    rewrite place_length, map_length, size_preorder in HoR.
    rewrite starts_length, map_length, size_preorder in HsR.
    assert (Ht : total (size_of x :: map size_of (preorder l) ++ map size_of (preorder r))
                 = sectors (size_of x) + (total (map size_of (preorder l)) + total (map size_of (preorder r)))).
    { change (size_of x :: map size_of (preorder l) ++ map size_of (preorder r))
        with ([size_of x] ++ map size_of (preorder l) ++ map size_of (preorder r)).
      rewrite !total_app. unfold total at 1. cbn. lia. }
    rewrite Ht in *. cbn [size] in *. rewrite (combine_firstn _ _ _ _ Hn), combine_split by lia.
    cbn [foldM]. cbn [fits].
    destruct (nm_spec x He1) as (Hn1 & Hn2 & Hn3 & Hn4).
    unfold disk_step at 1. rewrite Hd, Hn4. cbn [bind].
    rewrite (child_offset_spec _ _ _ offs secs (k + 1) l HL) by lia.
    destruct (root_fits offs (k + 1) l); [|reflexivity]. cbn [bind andb].
    rewrite (child_offset_spec _ _ _ offs secs (k + 1 + size l) r HR) by lia.
    destruct (root_fits offs (k + 1 + size l) r); [|reflexivity]. cbn [bind andb].
    cbn [x_node edata_of d_region r_size d_attrs x_name].
    pose proof (sectors_pos (size_of x)).
    rewrite allocate_spec by (unfold u32_modulus in *; lia). cbn [bind].
    rewrite dnode_ser_len. cbn [N.eqb Pos.eqb rassert bind]. rewrite (index_ok _ _ _ Ho). cbn [bind].
    set (a := anext (len bytes) (ilen x)) in *.
    pose proof (anext_ge (len bytes) (ilen x)) as Hge. fold a in Hge.
    assert (Hb1 : (if len bytes <? a then bytes ++ fill (a - len bytes) xff else bytes) = bytes ++ fill (a - len bytes) xff).
    { destruct (N.ltb_spec (len bytes) a); auto. replace (a - len bytes) with 0 by lia. cbn. rewrite app_nil_r. reflexivity. }
    rewrite Hb1. replace (len (bytes ++ fill (a - len bytes) xff) =? a) with true.
    2:{ symmetry. apply N.eqb_eq. rewrite len_app, len_fill. lia. }
    cbn [rassert bind].
    set (e := mkPent a nf x).
    set (L := label offs secs (k + 1) l). set (R := label offs secs (k + 1 + size l) r).
    assert (Elab : label offs secs k (Node l x r) = Node L e R).
    { cbn [label]. fold L R. rewrite (nth_error_nth _ _ _ Ho), (nth_error_nth _ _ _ Hse). reflexivity. }
    rewrite Elab.
    set (rb := rec_bytes e L R).
    assert (Erb : dnode_ser (mkDnode (child_ptr L) (child_ptr R) (mkDdata (mkRegion nf (size_of x)) (attrs_of x) (len (nm x)))) ++ nm x = rb) by reflexivity.
    rewrite Erb.
    assert (Hplr : plen rb = ilen x). { unfold plen, rb. rewrite rec_bytes_len. cbn [p_item e]. rewrite Hn2. reflexivity. }
    assert (Hrbl : len rb = 14 + len (nm x)) by apply rec_bytes_len.
    set (bytes2 := bytes ++ fill (a - len bytes) xff ++ rb ++ fill (plen rb - len rb) xff).
    assert (Hb2 : (if 0 <? (14 + len (nm x)) mod 4 then ((bytes ++ fill (a - len bytes) xff) ++ rb) ++ fill (4 - (14 + len (nm x)) mod 4) xff
                   else (bytes ++ fill (a - len bytes) xff) ++ rb) = bytes2).
    { unfold bytes2. unfold plen. rewrite Hrbl. unfold pad4. destruct (N.ltb_spec 0 ((14 + len (nm x)) mod 4)).
      - rewrite <- !app_assoc. do 4 f_equal. lia.
      - rewrite N.sub_diag. cbn. rewrite app_nil_r, <- !app_assoc. reflexivity. }
    rewrite Hb2.
    assert (Hl2 : len bytes2 = a + ilen x).
    { unfold bytes2. rewrite !len_app, !len_fill. pose proof (plen_ge rb). lia. }
    change (14 =? 14) with true. cbn [rassert bind]. rewrite foldM_app. change (x_name (edata_of x)) with (i_name x).
    assert (Hdir : attr_directory (attrs_of x) = i_dir x) by (unfold attrs_of; destruct (i_dir x); reflexivity).
    rewrite Hdir.
    erewrite IHl; eauto; try (rewrite Hl2; auto); try lia.
    destruct (fits offs (k + 1) l) eqn:EfL; [|reflexivity]. cbn [bind andb]. fold L.
    assert (HitL : map p_item (preorder L) = preorder l) by apply label_preorder_items.
    assert (HpL : map plen (recs L) = map ilen (preorder l)).
    { rewrite recs_plen; rewrite HitL; auto. }
    assert (Hl3 : len (bytes2 ++ render (a + ilen x) (recs L)) = pend (a + ilen x) (map ilen (preorder l))).
    { rewrite len_app, Hl2, render_len, HpL. reflexivity. }
    erewrite IHr; eauto; try (rewrite Hl3; auto); try lia.
    destruct (fits offs (k + 1 + size l) r); [|reflexivity]. fold R. cbn [preorder recs map].
    f_equal. f_equal; [f_equal|].
    + change (rec_bytes e L R) with rb. cbn [render]. rewrite Hplr. fold a. rewrite render_app, HpL.
      unfold bytes2. rewrite Hplr. rewrite <- !app_assoc. reflexivity.
    + rewrite map_app, <- !app_assoc. reflexivity.
    + lia.
Qed.

(** ** When child offsets fit *)
Lemma fits_iff offs d : forall k,
  fits offs k d = true <-> (forall j, (1 <= j < size d)%nat -> nth (k + j) offs 0 < 262144).
Proof.
  induction d as [|l IHl x r IHr]; intros k; cbn [fits size].
  - split; auto. intros _ j Hj. lia.
  - rewrite !andb_true_iff, IHl, IHr.
    assert (Hroot : forall k t, root_fits offs k t = true <-> ((0 < size t)%nat -> nth k offs 0 < 262144)).
    { intros k' t. destruct t; cbn [root_fits size].
      - split; auto. lia.
      - rewrite N.ltb_lt. split; [intros; lia|intros H; specialize (H ltac:(lia)); lia]. }
    rewrite !Hroot. split.
    + intros (H1 & H2 & H3 & H4) j Hj.
      destruct (Nat.eq_dec j 1) as [->|Hj1].
      { destruct (size l) as [|sl] eqn:Esl.
        - rewrite Nat.add_0_r in H2. apply H2. lia.
        - apply H1. lia. }
      destruct (Nat.lt_ge_cases j (1 + size l)).
      * replace (k + j)%nat with (k + 1 + (j - 1))%nat by lia. apply H3. lia.
      * destruct (Nat.eq_dec j (1 + size l)) as [->|Hj2].
        -- replace (k + (1 + size l))%nat with (k + 1 + size l)%nat by lia. apply H2. lia.
        -- replace (k + j)%nat with (k + 1 + size l + (j - 1 - size l))%nat by lia. apply H4. lia.
    + intros H. ssplit.
      * intros Hl. apply H. lia.
      * intros Hr. replace (k + 1 + size l)%nat with (k + (1 + size l))%nat by lia. apply H. lia.
      * intros j Hj. replace (k + 1 + j)%nat with (k + (1 + j))%nat by lia. apply H. lia.
      * intros j Hj. replace (k + 1 + size l + j)%nat with (k + (1 + size l + j))%nat by lia. apply H. lia.
Qed.

Lemma place_small e ls : Forall plen_ok ls -> e <= 262144 ->
  (pend e ls <= 262144 <-> Forall (fun o => o < 262144) (place e ls)).
Proof.
  intros H; revert e; induction H as [|l ls Hl Hls IH]; intros e He; cbn [pend place].
  - split; auto.
  - pose proof (anext_sector e l) as Hs. unfold plen_ok in Hl. specialize (Hs ltac:(lia)).
    pose proof (pend_ge (anext e l + l) ls) as Hp.
    destruct (N.lt_ge_cases (anext e l) 262144) as [Ha|Ha].
    + rewrite IH by lia. split; [constructor; auto|]. intros Hf; inversion Hf; auto.
    + split; [lia|]. intros Hf; inversion Hf. lia.
Qed.

Lemma fits_pend ls d : Forall plen_ok ls -> length ls = size d ->
  fits (place 0 ls) 0 d = true <-> pend 0 ls <= 262144.
Proof.
  intros HF Hlen. rewrite fits_iff, place_small by (auto; lia). split.
  - intros H. apply Forall_forall. intros o Ho. apply In_nth_error in Ho as (j & Hj).
    pose proof (nth_error_lt _ _ _ Hj) as Hlt. rewrite place_length in Hlt.
    destruct j as [|j].
    + destruct ls as [|l ls]; [discriminate|]. cbn in Hj. injection Hj as <-. change (anext 0 l) with 0. lia.
    + specialize (H (S j) ltac:(lia)). cbn [plus] in H. rewrite (nth_error_nth _ _ _ Hj) in H. auto.
  - intros H j Hj. cbn [plus]. rewrite Forall_forall in H. apply H. apply nth_In. rewrite place_length. lia.
Qed.

(** ** Histories of a table writer *)
Definition Reach (t : avl edata) (xs : list item) : Prop :=
  insert_all edata_cmp avl_default (map edata_of xs) = Ok (t, repeat true (length xs)).

Lemma edata_total_order : total_order edata_cmp.
Proof.
  destruct name_total_order as [H1 H2 H3]. split; unfold edata_cmp; intros; eauto.
Qed.

Lemma insert_all_app {T} (cmp : T -> T -> comparison) xs ys t :
  insert_all cmp t (xs ++ ys) = let* (t1, b1) := insert_all cmp t xs in let* (t2, b2) := insert_all cmp t1 ys in Ok (t2, b1 ++ b2).
Proof.
  revert t; induction xs as [|x xs IH]; intros t; cbn [app insert_all bind].
  - destruct (insert_all cmp t ys) as [[t2 b2]|e|p|]; reflexivity.
  - destruct (insert cmp t x) as [[t1 b]|e|p|]; cbn [bind]; auto. rewrite IH.
    destruct (insert_all cmp t1 xs) as [[t2 b2]|e|p|]; cbn [bind]; auto.
    destruct (insert_all cmp t2 ys) as [[t3 b3]|e|p|]; cbn [bind]; auto.
Qed.

Lemma keep_first_true {T} (cmp : T -> T -> comparison) xs : forall acc l,
  keep_first cmp acc xs = (l, repeat true (length xs)) -> l = acc ++ xs.
Proof.
  induction xs as [|x xs IH]; intros acc l; cbn.
  - intros E; injection E as <-. rewrite app_nil_r. reflexivity.
  - destruct (known cmp x acc).
    + destruct (keep_first cmp acc xs). discriminate.
    + destruct (keep_first cmp (acc ++ [x]) xs) as [r bs] eqn:E. intros E1; injection E1 as -> ->.
      rewrite (IH _ _ E), <- app_assoc. reflexivity.
Qed.

Lemma Reach_data t xs : Reach t xs -> map data (tree t) = map edata_of xs.
Proof.
  intros H. destruct (history_correct edata_cmp edata_total_order (map edata_of xs)) as (t' & bs & d & o & E & _ & _ & _ & _ & K & _).
  unfold Reach in H. rewrite H in E. injection E as <- <-.
  rewrite <- (map_length edata_of) in K. apply keep_first_true in K. auto.
Qed.

Lemma Reach_insert t xs x : Reach t xs ->
  (exists t', insert edata_cmp t (edata_of x) = Ok (t', true) /\ Reach t' (xs ++ [x])
     /\ forall y, In y xs -> item_cmp x y <> Eq)
  \/ (insert edata_cmp t (edata_of x) = Ok (t, false) /\ exists y, In y xs /\ item_cmp x y = Eq).
Proof.
  intros H. destruct (insert_after edata_cmp edata_total_order _ _ _ (edata_of x) H) as (t' & Hi & Hd).
  rewrite (Reach_data _ _ H) in *.
  destruct (known edata_cmp (edata_of x) (map edata_of xs)) eqn:K; cbn [negb] in *.
  - right. subst t'. split; auto. apply existsb_exists in K as (z & Hz & Hzx). apply in_map_iff in Hz as (y & <- & Hy).
    exists y. split; auto. unfold item_cmp, edata_cmp in *. cbn in Hzx. destruct (cmp_ignore_case_utf8 _ _); congruence.
  - left. exists t'. ssplit; auto.
    + unfold Reach in *. rewrite map_app, insert_all_app, H. cbn [bind map insert_all]. rewrite Hi. cbn [bind].
      rewrite app_length, repeat_app. reflexivity.
    + intros y Hy Hxy. assert (known edata_cmp (edata_of x) (map edata_of xs) = true); [|congruence].
      apply existsb_exists. exists (edata_of y). split; [apply in_map; auto|].
      unfold edata_cmp. cbn. unfold item_cmp in Hxy. rewrite Hxy. reflexivity.
Qed.

Lemma distinct_snoc xs x : distinct (xs ++ [x]) <-> distinct xs /\ (forall y, In y xs -> item_cmp x y <> Eq).
Proof.
  induction xs as [|z xs IH]; cbn.
  - split; [intros _; split; [auto|tauto]|]. intros _. split; [tauto|auto].
  - rewrite IH. split.
    + intros (H1 & H2 & H3). ssplit; auto.
      * intros y Hy. apply H1. apply in_or_app; auto.
      * intros y [<-|Hy]; auto. intros Hxz. apply (H1 x); [apply in_or_app; right; left; auto|].
        unfold item_cmp in *. rewrite cmp_ic_opp, Hxz. reflexivity.
    + intros ((H1 & H2) & H3). ssplit; auto. intros y Hy. apply in_app_or in Hy as [Hy|[<-|[]]]; auto.
      intros Hzy. apply (H3 z); auto. unfold item_cmp in *. rewrite cmp_ic_opp, Hzy. reflexivity.
Qed.

Definition short (x : item) : Prop := utf8_len (i_name x) < 256.

Definition size_fits (x : item) : Prop := i_size x < u32_modulus /\ size_of x < u32_modulus.

Lemma add_item_eq m w x : size_fits x ->
  add_item m w x =
    if 255 <? utf8_len (i_name x) then Err FileNameTooLong
    else let* (t, inserted) := lift (insert edata_cmp (w_table w) (edata_of x)) in
         if inserted then Ok (mkWriter t None) else Err DuplicateFileName.
Proof.
  intros (Hi & Hs). unfold add_item, add_dir, add_file.
  assert (Hn : forall s a, add_node w (i_name x) s a = if 255 <? utf8_len (i_name x) then Err FileNameTooLong
     else let* (t, inserted) := lift (insert edata_cmp (w_table w) (mkEdata (mkDdata (mkRegion 0 s) a (utf8_len (i_name x))) (i_name x))) in
         if inserted then Ok (mkWriter t None) else Err DuplicateFileName).
  { intros s a. unfold add_node. destruct (N.ltb_spec 256 (utf8_len (i_name x))), (N.ltb_spec 255 (utf8_len (i_name x))); auto. lia. }
  unfold edata_of, size_of, attrs_of in *. destruct (i_dir x); [|rewrite Hn; reflexivity].
  rewrite u32_add_ok by lia. cbn [bind]. rewrite Hn.
  replace (i_size x + (2048 - i_size x mod 2048) mod 2048) with ((i_size x + 2047) / 2048 * 2048) by lia.
  reflexivity.
Qed.

Lemma add_items_run m : forall xs ys w, Reach (w_table w) ys -> Forall size_fits xs ->
  distinct ys ->
  (exists w', foldM (add_item m) w xs = Ok w' /\ Reach (w_table w') (ys ++ xs) /\ distinct (ys ++ xs) /\ Forall short xs
      /\ (xs <> [] -> w_size w' = None))
  \/ (foldM (add_item m) w xs = Err FileNameTooLong /\ exists x, In x xs /\ ~ short x)
  \/ (foldM (add_item m) w xs = Err DuplicateFileName /\ ~ distinct (ys ++ xs)).
Proof.
  induction xs as [|x xs IH]; intros ys w HR HF HD; cbn [foldM].
  - left. exists w. rewrite app_nil_r. ssplit; auto. congruence.
  - inversion HF as [|? ? Hx Hxs]; subst. rewrite add_item_eq by auto.
    destruct (N.ltb_spec 255 (utf8_len (i_name x))) as [Hlong|Hshort].
    + right; left. cbn [bind]. split; auto. exists x. split; [left; auto|]. unfold short. lia.
    + destruct (Reach_insert _ _ x HR) as [(t' & Hi & HR' & Hnew)|(Hi & y & Hy & Hxy)]; rewrite Hi; cbn [lift bind].
      * assert (HD' : distinct (ys ++ [x])) by (apply distinct_snoc; auto).
        destruct (IH (ys ++ [x]) (mkWriter t' None) HR' Hxs HD') as [(w' & H1 & H2 & H3 & H4 & H5)|[(H1 & z & Hz & Hzs)|(H1 & H2)]].
        -- left. exists w'. rewrite <- app_assoc in *. cbn [app] in *. ssplit; auto.
           ++ constructor; auto. unfold short. lia.
           ++ intros _. destruct xs; [|apply H5; discriminate]. cbn in H1. injection H1 as <-. reflexivity.
        -- right; left. split; auto. exists z. split; auto. right; auto.
        -- right; right. split; auto. rewrite <- app_assoc in H2. auto.
      * right; right. split; auto. intros Hc.
        assert (Hp : forall a b, distinct (a ++ b) -> distinct a).
        { intros a b; induction a as [|z a IHa]; cbn; auto. intros (Q1 & Q2). split; auto.
          intros u Hu. apply Q1. apply in_or_app; auto. }
        change (ys ++ x :: xs) with (ys ++ [x] ++ xs) in Hc. rewrite app_assoc in Hc. apply Hp in Hc.
        apply distinct_snoc in Hc as [_ Hc]. apply (Hc y Hy Hxy).
Qed.

Lemma Reach_nil : Reach avl_default [].
Proof. reflexivity. Qed.

(** The tree of a table. *)
Lemma tree_lift {A B} (f : A -> B) d : forall l, inorder d = map f l -> exists d', tmap f d' = d /\ inorder d' = l.
Proof.
  induction d as [|dl IHl x dr IHr]; cbn; intros l H.
  - destruct l; [|discriminate]. exists Leaf. auto.
  - symmetry in H. apply map_eq_app in H as (l1 & l2 & -> & H1 & H2). destruct l2 as [|y l2]; [discriminate|].
    cbn in H2. injection H2 as H2 H3. symmetry in H1, H3. apply IHl in H1 as (L & <- & <-). apply IHr in H3 as (R & <- & <-).
    exists (Node L y R). cbn. rewrite H2. auto.
Qed.

Lemma Reach_tree t xs : Reach t xs ->
  exists d order, link (tree t) None (root t) (tmap edata_of d) order
    /\ Permutation (inorder d) xs /\ strictly_sorted item_cmp (inorder d) /\ balanced (tmap edata_of d)
    /\ length (tree t) = length xs.
Proof.
  intros H. destruct (history_correct edata_cmp edata_total_order (map edata_of xs)) as (t' & bs & d & o & E & H1 & H2 & H3 & H4 & K & H5).
  pose proof (Reach_data _ _ H) as Hd.
  unfold Reach in H. rewrite H in E. injection E as <- <-.
  rewrite Hd in H5. apply Permutation_map_inv in H5 as (l & El & Hl).
  destruct (tree_lift edata_of d l El) as (d' & <- & <-).
  exists d', o. ssplit; auto.
  - symmetry. auto.
  - rewrite tmap_inorder in H3. clear -H3. unfold strictly_sorted in *. revert H3.
    generalize (inorder d') as l. induction l as [|a l IH]; cbn; intros H; constructor; inversion H; subst; auto.
    apply Forall_forall. intros b Hb. rewrite Forall_forall in H3. apply (H3 (edata_of b)). apply in_map; auto.
  - rewrite <- (map_length data), Hd, map_length. auto.
Qed.

(** ** compute_size *)
Lemma link_mapM {E} ns p o (d : dtree edata) order : link ns p o d order ->
  mapM (fun i => let* n := @index E _ ns i in Ok (data n)) order = Ok (preorder d).
Proof.
  induction 1 as [|p i n l r ol or_ Hn Hp Hl IHl Hr IHr Hh]; auto.
  cbn [mapM preorder]. rewrite (index_ok _ _ _ Hn). cbn [bind].
  assert (Happ : forall a b, mapM (fun i => let* n := @index E _ ns i in Ok (data n)) (a ++ b)
     = let* x := mapM (fun i => let* n := @index E _ ns i in Ok (data n)) a in
       let* y := mapM (fun i => let* n := @index E _ ns i in Ok (data n)) b in Ok (x ++ y)).
  { induction a as [|z a IHa]; intros b; cbn [app mapM bind].
    - destruct (mapM _ b); reflexivity.
    - destruct (@index E _ ns z); cbn [bind]; auto. rewrite IHa. destruct (mapM _ a); cbn [bind]; auto. destruct (mapM _ b); cbn; auto. }
  rewrite Happ, IHl, IHr. reflexivity.
Qed.

Lemma preorder_data_spec t xs d order : Reach t xs -> link (tree t) None (root t) (tmap edata_of d) order ->
  preorder_data t = Ok (map edata_of (preorder d)).
Proof.
  intros HR HL. unfold preorder_data.
  destruct (history_reorder edata_cmp edata_total_order _ _ _ _ _ HR HL) as (-> & _). cbn [lift bind].
  rewrite (link_mapM _ _ _ _ _ HL), tmap_preorder. reflexivity.
Qed.

Definition enc_b (x : item) : bool := match encode_1252 (i_name x) with Some _ => true | None => false end.

Lemma enc_b_spec x : short x -> (enc_b x = true <-> encodable x).
Proof.
  intros H. unfold enc_b, encodable. destruct (encode_1252 (i_name x)) as [bs|] eqn:E.
  - split; auto. intros _. split; auto. exists bs. apply encode_1252_iff; auto.
  - split; [discriminate|]. intros (_ & bs & Hbs). apply encode_1252_iff in Hbs. congruence.
Qed.

Lemma size_fold_items m : forall xs e, Forall short xs -> e + 544 * len xs < u32_modulus ->
  foldM (size_step m) e (map edata_of xs) = if forallb enc_b xs then Ok (pend e (map ilen xs)) else Err WStringEncodingError.
Proof.
  induction xs as [|x xs IH]; intros e HS HB; [reflexivity|]. inversion HS as [|? ? H1 H2]; subst.
  rewrite len_cons in HB. cbn [map foldM forallb pend].
  destruct (enc_b x) eqn:Ex.
  - apply enc_b_spec in Ex; auto. pose proof (ilen_ok x Ex) as Hi. pose proof (len_on_disk_spec x Ex) as Hl.
    assert (Hstep : size_step m e (edata_of x) = Ok (anext e (ilen x) + ilen x)).
    { pose proof (size_fold m [edata_of x] [ilen x] e) as Q. cbn [mapM foldM pend] in Q. rewrite Hl in Q. cbn [bind] in Q.
      specialize (Q eq_refl ltac:(auto)). rewrite len_cons, len_nil in Q.
      destruct (size_step m e (edata_of x)); cbn in Q; apply Q; lia. }
    rewrite Hstep. cbn [bind andb]. apply IH; auto. destruct (anext_lt e (ilen x)); unfold plen_ok in *; lia.
  - cbn [andb]. unfold size_step at 1. unfold len_on_disk, encode_name. cbn [x_name edata_of].
    unfold enc_b in Ex. destruct (encode_1252 (i_name x)); [discriminate|]. reflexivity.
Qed.

Lemma compute_size_spec m w xs d order : Reach (w_table w) xs -> Forall short xs -> Permutation (inorder d) xs ->
  link (tree (w_table w)) None (root (w_table w)) (tmap edata_of d) order ->
  544 * len xs < u32_modulus ->
  compute_size m w = if forallb enc_b xs then Ok (mkWriter (w_table w) (Some (pend 0 (map ilen (preorder d)))))
                     else Err WStringEncodingError.
Proof.
  intros HR HS HP HL HB. unfold compute_size. rewrite (preorder_data_spec _ _ _ _ HR HL). cbn [bind].
  assert (HP' : Permutation (preorder d) xs).
  { transitivity (inorder d); auto. clear. induction d as [|l IHl x r IHr]; cbn; auto.
    rewrite IHl, IHr. apply Permutation_middle. }
  rewrite size_fold_items.
  - replace (forallb enc_b (preorder d)) with (forallb enc_b xs).
    + destruct (forallb enc_b xs); reflexivity.
    + clear -HP'. induction HP'; cbn; auto; try congruence. rewrite !andb_assoc, (andb_comm (enc_b x)). reflexivity.
  - eapply Permutation_Forall; [symmetry; exact HP'|]. auto.
  - unfold len in *. rewrite (Permutation_length HP'). lia.
Qed.

Lemma preorder_perm {A} (d : dtree A) : Permutation (preorder d) (inorder d).
Proof. induction d as [|l IHl x r IHr]; cbn; auto. rewrite IHl, IHr. apply Permutation_middle. Qed.

(** ** disk_repr *)
Definition dtab (nf : N) (d : dtree item) : dtree pent :=
  label (place 0 (map ilen (preorder d))) (starts nf (map size_of (preorder d))) 0 d.

Definition table_bytes (D : dtree pent) : list byte :=
  let b := render 0 (recs D) in b ++ fill ((2048 - len b mod 2048) mod 2048) xff.

Lemma disk_repr_spec m t nf xs d order :
  Reach t xs -> Permutation (inorder d) xs -> link (tree t) None (root t) (tmap edata_of d) order ->
  Forall encodable xs -> small_sizes xs -> xs <> [] ->
  544 * len xs < u32_modulus -> nf + total (map size_of (preorder d)) < u32_modulus ->
  let s := pend 0 (map ilen (preorder d)) in
  disk_repr m (mkWriter t (Some s)) nf =
    if s <=? 262144 then Ok (mkDiskTable (table_bytes (dtab nf d)) (map lst (preorder (dtab nf d))), nf + total (map size_of (preorder d)))
    else Err TooManyDirectoryEntries.
Proof.
  intros HR HP HL HE HS Hne HB Hnf s.
  pose proof (Permutation_trans (preorder_perm d) HP) as HP'.
  destruct (history_reorder edata_cmp edata_total_order _ _ _ _ _ HR HL) as (_ & t' & R1 & R2 & R3 & R4).
  rewrite tmap_preorder in R4.
  assert (HE' : Forall encodable (preorder d)) by (eapply Permutation_Forall; [symmetry; exact HP'|auto]).
  assert (HS' : small_sizes (preorder d)) by (eapply Permutation_Forall; [symmetry; exact HP'|auto]).
  assert (Hlen : length (tree t) = size d).
  { rewrite <- R3, <- (map_length data), R4, map_length, size_preorder. reflexivity. }
  rewrite Hlen in *.
  assert (Hsz : size d = length xs) by (rewrite <- size_preorder; apply Permutation_length; auto).
  assert (Hls : map data (tree t') = map edata_of (preorder d)) by auto.
  set (ls := map ilen (preorder d)) in *.
  assert (HF : Forall plen_ok ls).
  { unfold ls. apply Forall_forall. intros l Hl. apply in_map_iff in Hl as (x & <- & Hx). apply ilen_ok.
    rewrite Forall_forall in HE'. auto. }
  assert (Hlsl : length ls = size d) by (unfold ls; rewrite map_length, size_preorder; auto).
  assert (HM : mapM (fun n => len_on_disk (data n)) (tree t') = Ok ls).
  { unfold ls. clear -Hls HE'. revert Hls. generalize (preorder d) as l, HE'. clear HE'. intros l HE Hls. revert l HE Hls.
    induction (tree t') as [|n ns IH]; intros [|x l] HE H; cbn in *; try discriminate; auto.
    injection H as H1 H2. inversion HE; subst. rewrite H1, len_on_disk_spec by auto. cbn [bind].
    rewrite (IH l) by auto. reflexivity. }
  unfold disk_repr, table_is_empty. cbn [w_table w_size].
  destruct (tree t) as [|n0 ns0] eqn:Et.
  { cbn in Hlen. destruct xs; [congruence|]. cbn in Hsz. lia. }
  rewrite R1. cbn [lift bind]. rewrite HM. cbn [bind].
  assert (Hmt : forall (A : Type) (a b : A), match ls with [] => a | _ => b end = b).
  { intros A a b. destruct ls; auto. cbn in Hlsl. cbn in Hlen. lia. }
  rewrite Hmt.
  rewrite compute_offsets_spec; auto.
  2:{ intros ->. cbn in Hlsl. cbn in Hlen. lia. }
  2:{ unfold len in *. rewrite Hlsl, Hsz. auto. }
  cbn [bind].
  assert (Hen : enumerate (tree t') = combine (seq 0 (size d)) (firstn (size d) (skipn 0 (tree t')))).
  { unfold enumerate. cbn [skipn]. rewrite R3, firstn_all2 by lia. reflexivity. }
  rewrite Hen.
  rewrite (disk_fold m (place 0 ls) (starts nf (map size_of (preorder d))) (tree t') d 0 None (root t')); auto.
  2:{ intros j Hj. cbn [plus]. reflexivity. }
  2:{ intros j Hj. cbn [plus]. reflexivity. }
  2:{ lia. }
  2:{ rewrite place_length. lia. }
  change (label (place 0 ls) (starts nf (map size_of (preorder d))) 0 d) with (dtab nf d).
  cbn zeta. change (len (@nil byte)) with 0. cbn [app].
  destruct (N.leb_spec s 262144) as [Hle|Hgt].
  - apply (fits_pend ls d HF Hlsl) in Hle. rewrite Hle. cbn [bind].
    assert (Hb : len (render 0 (recs (dtab nf d))) = s).
    { pose proof (render_len 0 (recs (dtab nf d))) as Q. rewrite N.add_0_l in Q. rewrite Q. unfold s, ls.
      rewrite recs_plen; unfold dtab; rewrite label_preorder_items; auto. }
    rewrite Hb. assert (Hsb : s < u32_modulus).
    { pose proof (pend_bound 0 ls HF). unfold s. unfold len in *. rewrite Hlsl, Hsz in H. lia. }
    rewrite N.mod_small by auto. rewrite N.eqb_refl. cbn [rassert bind].
    assert (Hpos : 0 < s).
    { unfold s. destruct ls as [|l ls0]; [cbn in Hlsl; cbn in Hlen; lia|]. cbn [pend].
      pose proof (pend_ge (anext 0 l + l) ls0). inversion HF as [|? ? [H1 ?] ?]; subst. lia. }
    destruct (N.ltb_spec 0 s); [|lia]. cbn [rassert bind]. unfold table_bytes. rewrite Hb. reflexivity.
  - destruct (fits (place 0 ls) 0 d) eqn:Ef; [|reflexivity].
    apply (fits_pend ls d HF Hlsl) in Ef. unfold s in Hgt. lia.
Qed.
