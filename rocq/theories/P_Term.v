(** Proofs about termination of lookups, walks and scans, and about file reads. *)
From Verif Require Import M_Base M_Util M_Layout M_Read S_Avl S_Codec S_Read P_Base P_Layout P_Codec P_Path P_Read P_Find.
From Coq Require Import Init.Byte Sorted Permutation.
Local Open Scope N_scope.

(** ** File reads (C27, C28) *)
Lemma c27_lemma d x :
  (r_size (d_region x) = 0 -> read_data_all d x = Ok [])
  /\ (forall bs, 0 < r_size (d_region x) -> d (2048 * r_sector (d_region x)) (r_size (d_region x)) = Ok bs ->
        read_data_all d x = Ok bs)
  /\ (forall e, 0 < r_size (d_region x) -> d (2048 * r_sector (d_region x)) (r_size (d_region x)) = Err e ->
        read_data_all d x = Err (IOError e)).
Proof.
  unfold read_data_all. ssplit.
  - intros ->. reflexivity.
  - intros bs H E. destruct (N.eqb_spec (r_size (d_region x)) 0); [lia|].
    rewrite region_offset_ok by auto. cbn [bind]. rewrite N.add_0_r, E. reflexivity.
  - intros e H E. destruct (N.eqb_spec (r_size (d_region x)) 0); [lia|].
    rewrite region_offset_ok by auto. cbn [bind]. rewrite N.add_0_r, E. reflexivity.
Qed.

Lemma c28_partial_lemma img x size offset :
  offset + size <= r_size (d_region x) -> offset < r_size (d_region x) ->
  2048 * r_sector (d_region x) + r_size (d_region x) <= len img ->
  read_data_offset (file_dev img) x size offset
  = Ok (slice (slice img (2048 * r_sector (d_region x)) (r_size (d_region x))) offset size).
Proof.
  intros H1 H2 H3. unfold read_data_offset. destruct (N.eqb_spec (r_size (d_region x)) 0); [lia|].
  rewrite region_offset_ok by auto. cbn [bind]. rewrite N.min_l by lia. unfold file_dev.
  rewrite slice_slice by auto. destruct (N.eqb_spec size 0) as [->|]; [reflexivity|].
  destruct (N.leb_spec (2048 * r_sector (d_region x) + offset + size) (len img)); [reflexivity|lia].
Qed.

(** ** Termination *)
Lemma read_dirent_real d off : real d -> read_dirent d off <> OutOfFuel.
Proof.
  intros HR. unfold read_dirent. pose proof (HR off 14) as H. destruct (d off 14) as [b| | |]; cbn; try congruence.
  destruct (deserialize_dirent_node b off) as [e|]; [|discriminate].
  pose proof (HR (off + 14) (d_namelen (d_dirent (e_node e)))) as H1. destruct (d (off + 14) _); cbn; congruence.
Qed.

Lemma terminates_const {E A} (o : res E A) (f : nat -> res E A) n :
  o <> OutOfFuel -> (forall fuel, (n <= fuel)%nat -> f fuel = o) -> terminates f.
Proof. intros H1 H2. exists o. split; auto. exists n. auto. Qed.

Lemma terminates_S {E A} (f g : nat -> res E A) : terminates g -> (forall fuel, f (S fuel) = g fuel) -> terminates f.
Proof.
  intros (o & H1 & n & H2) H. exists o. split; auto. exists (S n). intros [|fuel] Hf; [lia|]. rewrite H. apply H2. lia.
Qed.

Lemma N_down (P : N -> Prop) B : (forall o, B <= o -> P o) -> (forall o, o < B -> (forall o', o < o' -> P o') -> P o) -> forall o, P o.
Proof.
  intros H1 H2 o. remember (B - o) as k eqn:E. revert o E.
  induction k as [k IH] using (well_founded_induction N.lt_wf_0). intros o ->.
  destruct (N.le_gt_cases B o) as [H|H]; auto. apply H2; auto. intros o' Ho'.
  destruct (N.le_gt_cases B o') as [H'|H']; auto. apply (IH (B - o')); auto. lia.
Qed.

Lemma forward_find d r name : lawful d -> real d -> forward d r -> forall o, o < r_size r ->
  terminates (fun fuel => find_loop fuel d r name (2048 * r_sector r + o)).
Proof.
  intros HL HR HF. apply (N_down (fun o => o < r_size r -> terminates (fun fuel => find_loop fuel d r name (2048 * r_sector r + o))) (r_size r)); [intros; lia|].
  intros o _ IH Ho. pose proof (read_dirent_real d (2048 * r_sector r + o) HR) as HN.
  destruct (read_dirent d (2048 * r_sector r + o)) as [[e|]|e|p|] eqn:E; [| | | |congruence].
  - apply read_dirent_iff in E as (E1 & E2); auto.
    assert (HI : stored_in d r e) by (split; auto; lia).
    destruct (HF e HI) as (F1 & F2). rewrite E2 in F1, F2.
    assert (HC : forall p, (p <> 0 -> o < 4 * p) -> terminates (fun fuel => if p =? 0 then Err DoesNotExist
        else let* offset := region_offset r (4 * p) in find_loop fuel d r name offset)).
    { intros p Hp. destruct (N.eqb_spec p 0) as [->|Hn]; [apply (terminates_const (Err DoesNotExist) _ 0); auto; discriminate|].
      unfold region_offset. destruct (N.leb_spec (r_size r) (4 * p)); cbn [bind].
      - eapply (terminates_const (Err _) _ 0); [discriminate|reflexivity].
      - apply IH; auto. }
    destruct (cmp_ignore_case_utf8 name (name_str e)) eqn:EC.
    + apply (terminates_const (Ok e) _ 1); [discriminate|]. intros [|fuel] Hf; [lia|]. cbn [find_loop].
      replace (read_dirent d (2048 * r_sector r + o)) with (@Ok rerr _ (Some e)) by (symmetry; apply read_dirent_iff; auto).
      cbn [ok_or bind]. rewrite EC. reflexivity.
    + eapply terminates_S; [apply (HC (d_left (e_node e))); intros; lia|]. intros fuel. cbn [find_loop].
      replace (read_dirent d (2048 * r_sector r + o)) with (@Ok rerr _ (Some e)) by (symmetry; apply read_dirent_iff; auto).
      cbn [ok_or bind]. rewrite EC. reflexivity.
    + eapply terminates_S; [apply (HC (d_right (e_node e))); intros; lia|]. intros fuel. cbn [find_loop].
      replace (read_dirent d (2048 * r_sector r + o)) with (@Ok rerr _ (Some e)) by (symmetry; apply read_dirent_iff; auto).
      cbn [ok_or bind]. rewrite EC. reflexivity.
  - apply (terminates_const (Err DoesNotExist) _ 1); [discriminate|]. intros [|fuel] Hf; [lia|]. cbn [find_loop]. rewrite E. reflexivity.
  - apply (terminates_const (Err e) _ 1); [discriminate|]. intros [|fuel] Hf; [lia|]. cbn [find_loop]. rewrite E. reflexivity.
  - apply (terminates_const (Panic p) _ 1); [discriminate|]. intros [|fuel] Hf; [lia|]. cbn [find_loop]. rewrite E. reflexivity.
Qed.

Lemma forward_find_dirent d r name : lawful d -> real d -> forward d r ->
  terminates (fun fuel => find_dirent fuel d r name).
Proof.
  intros HL HR HF. unfold find_dirent. destruct (region_is_empty r) eqn:E.
  - apply (terminates_const (Err DirectoryEmpty) _ 0); auto; discriminate.
  - assert (0 < r_size r) by (unfold region_is_empty in E; apply N.eqb_neq in E; lia).
    rewrite region_offset_ok by auto. cbn [bind]. apply forward_find; auto.
Qed.

Lemma forward_walk d r : lawful d -> real d -> forward d r -> forall o st,
  (forall acc, terminates (fun fuel => walk_loop fuel d r st acc)) ->
  forall acc, terminates (fun fuel => walk_loop fuel d r (o :: st) acc).
Proof.
  intros HL HR HF. apply (N_down (fun o => forall st, (forall acc, terminates (fun fuel => walk_loop fuel d r st acc)) ->
    forall acc, terminates (fun fuel => walk_loop fuel d r (o :: st) acc)) (r_size r)).
  - intros o Ho st _ acc. eapply (terminates_const (Err _) _ 1); [|intros [|fuel] Hf; [lia|]; cbn [walk_loop]; unfold region_offset;
      destruct (N.leb_spec (r_size r) o); [reflexivity|lia]]. discriminate.
  - intros o Ho IH st Hst acc. pose proof (read_dirent_real d (2048 * r_sector r + o) HR) as HN.
    destruct (read_dirent d (2048 * r_sector r + o)) as [[e|]|e|p|] eqn:E; [| | | |congruence].
    + pose proof E as E0. apply read_dirent_iff in E0 as (E1 & E2); auto.
      assert (HI : stored_in d r e) by (split; auto; lia).
      destruct (HF e HI) as (F1 & F2). rewrite E2 in F1, F2.
      eapply terminates_S; [|intros fuel; cbn [walk_loop]; rewrite region_offset_ok by auto; cbn [bind]; rewrite E; cbn [bind]; reflexivity].
      set (l := d_left (e_node e)) in *. set (r' := d_right (e_node e)) in *.
      assert (HC : forall (p : N) (st' : list N), (p <> 0 -> o < 4 * p) -> (forall acc, terminates (fun fuel => walk_loop fuel d r st' acc)) ->
        forall acc, terminates (fun fuel => walk_loop fuel d r (if negb (p =? 0) && negb (p =? 65535) then 4 * p :: st' else st') acc)).
      { intros p st' Hp H' acc'. destruct (N.eqb_spec p 0); cbn [negb andb]; auto. destruct (p =? 65535); cbn [negb]; auto. }
      apply HC; [intros; lia|]. apply HC; [intros; lia|]. auto.
    + eapply terminates_S; [apply (Hst acc)|]. intros fuel. cbn [walk_loop]. rewrite region_offset_ok by auto. cbn [bind]. rewrite E. reflexivity.
    + apply (terminates_const (Err e) _ 1); [discriminate|]. intros [|fuel] Hf; [lia|]. cbn [walk_loop]. rewrite region_offset_ok by auto. cbn [bind]. rewrite E. reflexivity.
    + apply (terminates_const (Panic p) _ 1); [discriminate|]. intros [|fuel] Hf; [lia|]. cbn [walk_loop]. rewrite region_offset_ok by auto. cbn [bind]. rewrite E. reflexivity.
Qed.

Lemma forward_walk_tree d r : lawful d -> real d -> forward d r -> terminates (fun fuel => walk_dirent_tree fuel d r).
Proof.
  intros HL HR HF. unfold walk_dirent_tree. destruct (region_is_empty r).
  - apply (terminates_const (Ok []) _ 0); auto; discriminate.
  - apply forward_walk; auto. intros acc. apply (terminates_const (Ok acc) _ 0); [discriminate|]. intros [|fuel] _; reflexivity.
Qed.

Lemma forward_walk_path d r path : lawful d -> real d -> (forall r', forward d r') -> terminates (fun fuel => walk_path fuel d r path).
Proof.
  intros HL HR HF. unfold walk_path. destruct path as [|c path]; [apply (terminates_const (Err NoDirent) _ 0); auto; discriminate|].
  destruct (str_eqb _ _); [apply (terminates_const (Err NoDirent) _ 0); auto; discriminate|].
  generalize (split_terminator (trim_start (c :: path))) as segs. intros segs. revert r.
  induction segs as [|s segs IH]; intros r; cbn [walk_segments].
  - apply (terminates_const (Panic PUnreachable) _ 0); auto; discriminate.
  - destruct (forward_find_dirent d r s HL HR (HF r)) as (o & Ho & n & Hn).
    destruct o as [e|e|p|]; [| | |congruence].
    + destruct segs as [|s' segs].
      * apply (terminates_const (Ok e) _ n); [discriminate|]. intros fuel Hf. rewrite Hn by auto. reflexivity.
      * destruct (is_dir e) eqn:EI.
        -- destruct (IH (region_of e)) as (o & Ho' & m & Hm). exists o. split; auto. exists (Nat.max n m). intros fuel Hf.
           rewrite Hn by lia. cbn [bind]. rewrite is_dir_table, EI. cbn [bind ok_or]. apply Hm. lia.
        -- apply (terminates_const (Err IsNotDirectory) _ n); [discriminate|]. intros fuel Hf. rewrite Hn by auto. cbn [bind]. rewrite is_dir_table, EI. reflexivity.
    + apply (terminates_const (Err e) _ n); [discriminate|]. intros fuel Hf. rewrite Hn by auto. reflexivity.
    + apply (terminates_const (Panic p) _ n); [discriminate|]. intros fuel Hf. rewrite Hn by auto. reflexivity.
Qed.

(** ** Sector scan (C33) *)
Definition scan_measure (s : scan) : N := 2048 * (s_end s - s_sector s) - s_offset s.
Definition scan_inv (s : scan) : Prop := s_sector s < s_end s -> s_offset s + 14 < 2048.

Lemma next_sector_real d s : real d -> next_sector d s <> OutOfFuel.
Proof.
  intros HR. unfold next_sector. destruct (_ <=? _); [discriminate|].
  pose proof (HR ((s_sector s + 1) * SECTOR_SIZE) 2048). destruct (d _ 2048); cbn; congruence.
Qed.

Lemma next_sector_inv d s s' : next_sector d s = Ok s' ->
  s_sector s' = s_sector s + 1 /\ s_offset s' = 0 /\ s_end s' = s_end s.
Proof.
  unfold next_sector. destruct (_ <=? _).
  - intros H; injection H as <-; auto.
  - intros H. apply bind_ok in H. destruct H as (b & _ & H). injection H as <-. auto.
Qed.

Lemma next_sector_no_panic d s p : calm d -> next_sector d s <> Panic p.
Proof.
  intros HC. unfold next_sector. destruct (_ <=? _); [discriminate|].
  destruct (HC ((s_sector s + 1) * SECTOR_SIZE) 2048) as [(b & E)|(e & E)]; rewrite E; discriminate.
Qed.

Definition scan_step_ok (s : scan) (o : res rerr (option dentry * scan)) : Prop :=
  match o with
  | OutOfFuel => False
  | Ok (Some _, s') => scan_inv s' /\ (s_sector s' <= s_end s') /\ scan_measure s' + 16 <= scan_measure s
  | _ => True
  end.

Lemma align4 o : let a := o + (4 - o mod 4) mod 4 in o <= a < o + 4 /\ a mod 4 = 0.
Proof.
  cbv zeta. pose proof (N.mod_lt o 4 ltac:(lia)) as H. pose proof (N.div_mod o 4 ltac:(lia)) as H1.
  assert (HC : o mod 4 = 0 \/ o mod 4 = 1 \/ o mod 4 = 2 \/ o mod 4 = 3) by lia.
  assert (HZ : forall k, (4 * k) mod 4 = 0) by (intros k; rewrite N.mul_comm; apply N.mod_mul; lia).
  destruct HC as [E|[E|[E|E]]]; rewrite E.
  - change ((4 - 0) mod 4) with 0. split; [lia|]. replace (o + 0) with (4 * (o / 4)) by lia. apply HZ.
  - change ((4 - 1) mod 4) with 3. split; [lia|]. replace (o + 3) with (4 * (o / 4 + 1)) by lia. apply HZ.
  - change ((4 - 2) mod 4) with 2. split; [lia|]. replace (o + 2) with (4 * (o / 4 + 1)) by lia. apply HZ.
  - change ((4 - 3) mod 4) with 1. split; [lia|]. replace (o + 1) with (4 * (o / 4 + 1)) by lia. apply HZ.
Qed.

Lemma next_loop_step d : real d -> forall k s, scan_inv s -> s_sector s < s_end s -> s_offset s mod 4 = 0 -> s_end s - s_sector s = k ->
  exists o, (forall fuel, (N.to_nat k < fuel)%nat -> next_loop fuel d s = o) /\ scan_step_ok s o
    /\ (forall e s', o = Ok (Some e, s') -> s_offset s' mod 4 = 0).
Proof.
  intros HR. induction k as [k IH] using (well_founded_induction N.lt_wf_0). intros s HI HS H4 HK.
  specialize (HI HS) as HO.
  destruct (deserialize_dirent_node (slice (s_buf s) (s_offset s) 14) (s_offset s)) as [e|] eqn:ED.
  - set (nl := d_namelen (d_dirent (e_node e))) in *.
    destruct (s_offset s + 14 + nl <=? SECTOR_SIZE) eqn:EN.
    2:{ exists (Panic PAssert). ssplit; [|exact I|discriminate]. intros [|fuel] Hf; [lia|]. cbn [next_loop]. unfold SECTOR_SIZE at 1.
        destruct (N.ltb_spec (s_offset s + 14) 2048); [|lia]. cbn [rassert bind]. rewrite ED. fold nl. rewrite EN. reflexivity. }
    assert (EN' : s_offset s + 14 + nl <= 2048) by (apply N.leb_le in EN; auto).
    set (off := s_offset s + 14 + nl + (4 - (s_offset s + 14 + nl) mod 4) mod 4).
    assert (HA : s_offset s + 14 + nl <= off < s_offset s + 14 + nl + 4 /\ off mod 4 = 0) by (apply (align4 (s_offset s + 14 + nl))).
    assert (H16 : s_offset s + 16 <= off).
    { pose proof (N.div_mod (s_offset s) 4 ltac:(lia)). pose proof (N.div_mod off 4 ltac:(lia)). lia. }
    assert (HB : off <= 2048).
    { pose proof (N.div_mod off 4 ltac:(lia)). lia. }
    set (s1 := mkScan (s_sector s) (s_buf s) off (s_end s)).
    set (e1 := with_name e (slice (s_buf s) (s_offset s + 14) nl)).
    exists (let* s2 := (if SECTOR_SIZE <=? off + 14 then next_sector d s1 else Ok s1) in Ok (Some e1, s2)).
    ssplit.
    + intros [|fuel] Hf; [lia|]. cbn [next_loop]. unfold SECTOR_SIZE at 1.
      destruct (N.ltb_spec (s_offset s + 14) 2048); [|lia]. cbn [rassert bind]. rewrite ED. fold nl. rewrite EN. reflexivity.
    + unfold SECTOR_SIZE. destruct (N.leb_spec 2048 (off + 14)).
      * pose proof (next_sector_real d s1 HR) as HN. destruct (next_sector d s1) as [s2| | |] eqn:E2; cbn; auto.
        apply next_sector_inv in E2. destruct E2 as (A1 & A2 & A3). cbn in A1, A2, A3.
        unfold scan_inv, scan_measure. rewrite A1, A2, A3. ssplit; try lia.
      * cbn [bind]. unfold scan_step_ok, scan_inv, scan_measure, s1. cbn [s_sector s_offset s_end s_buf]. ssplit; try lia.
    + intros e' s' H. unfold SECTOR_SIZE in H. destruct (N.leb_spec 2048 (off + 14)).
      * apply bind_ok in H. destruct H as (s2 & E2 & H). injection H as <- <-. apply next_sector_inv in E2. destruct E2 as (_ & -> & _). reflexivity.
      * cbn in H. injection H as <- <-. apply HA.
  - destruct (s_sector s + 1 <? s_end s) eqn:EL.
    + apply N.ltb_lt in EL as EL'. pose proof (next_sector_real d s HR) as HN.
      destruct (next_sector d s) as [s1|x|p|] eqn:E1; [| | |congruence].
      * pose proof (next_sector_inv _ _ _ E1) as (A1 & A2 & A3).
        destruct (IH (k - 1) ltac:(lia) s1) as (o & Ho & HOK & H4'); [intros _; lia|lia|rewrite A2; reflexivity|lia|].
        exists o. ssplit; auto.
        -- intros [|fuel] Hf; [lia|]. cbn [next_loop]. unfold SECTOR_SIZE at 1.
           destruct (N.ltb_spec (s_offset s + 14) 2048); [|lia]. cbn [rassert bind]. rewrite ED, EL, E1. cbn [bind]. apply Ho. lia.
        -- destruct o as [[[e'|] s']| | |]; cbn in *; auto. destruct HOK as (B1 & B2 & B3). ssplit; auto.
           unfold scan_measure in *. lia.
      * exists (Err x). ssplit; [|exact I|discriminate]. intros [|fuel] Hf; [lia|]. cbn [next_loop]. unfold SECTOR_SIZE at 1.
        destruct (N.ltb_spec (s_offset s + 14) 2048); [|lia]. cbn [rassert bind]. rewrite ED, EL, E1. reflexivity.
      * exists (Panic p). ssplit; [|exact I|discriminate]. intros [|fuel] Hf; [lia|]. cbn [next_loop]. unfold SECTOR_SIZE at 1.
        destruct (N.ltb_spec (s_offset s + 14) 2048); [|lia]. cbn [rassert bind]. rewrite ED, EL, E1. reflexivity.
    + exists (Ok (None, s)). ssplit; [|exact I|discriminate]. intros [|fuel] Hf; [lia|]. cbn [next_loop]. unfold SECTOR_SIZE at 1.
      destruct (N.ltb_spec (s_offset s + 14) 2048); [|lia]. cbn [rassert bind]. rewrite ED, EL. reflexivity.
Qed.

Lemma collect_total d : real d -> forall k s, scan_inv s -> s_sector s <= s_end s -> s_offset s mod 4 = 0 -> scan_measure s = k ->
  exists o, o <> OutOfFuel /\ (forall fuel, (N.to_nat k < fuel)%nat -> collect_scan fuel d s = o)
    /\ (forall es, o = Ok es -> 16 * len es <= k).
Proof.
  intros HR. induction k as [k IH] using (well_founded_induction N.lt_wf_0). intros s HI HS H4 HK.
  destruct (N.leb_spec (s_end s) (s_sector s)) as [HE|HE].
  - exists (Ok []). ssplit; [discriminate| |].
    + intros [|fuel] Hf; [lia|]. cbn [collect_scan]. unfold next_entry. destruct (N.leb_spec (s_end s) (s_sector s)); [|lia]. reflexivity.
    + intros es H. injection H as <-. rewrite (@len_nil dentry). lia.
  - destruct (next_loop_step d HR _ s HI HE H4 eq_refl) as (o & Ho & HOK & H4').
    assert (HK' : s_end s - s_sector s <= k) by (specialize (HI HE); unfold scan_measure in HK; lia).
    assert (HNE : forall fuel, (N.to_nat k < fuel)%nat -> next_entry fuel d s = o).
    { intros fuel Hf. unfold next_entry. destruct (N.leb_spec (s_end s) (s_sector s)); [lia|]. apply Ho. lia. }
    destruct o as [[[e|] s']|x|p|]; cbn in HOK; [| | | |contradiction].
    + destruct HOK as (B1 & B2 & B3). destruct (IH (scan_measure s') ltac:(lia) s' B1 B2 (H4' _ _ eq_refl) eq_refl) as (o & O1 & O2 & O3).
      exists (let* es := o in Ok (e :: es)). ssplit.
      * destruct o; cbn; congruence.
      * intros [|fuel] Hf; [lia|]. cbn [collect_scan]. rewrite HNE by lia. cbn [bind]. rewrite O2 by lia. reflexivity.
      * intros es H. apply bind_ok in H. destruct H as (es' & -> & H). injection H as <-. specialize (O3 _ eq_refl). rewrite len_cons. lia.
    + exists (Ok []). ssplit; [discriminate| |].
      * intros [|fuel] Hf; [lia|]. cbn [collect_scan]. rewrite HNE by lia. reflexivity.
      * intros es H. injection H as <-. rewrite (@len_nil dentry). lia.
    + exists (Err x). ssplit; [discriminate| |discriminate]. intros [|fuel] Hf; [lia|]. cbn [collect_scan]. rewrite HNE by lia. reflexivity.
    + exists (Panic p). ssplit; [discriminate| |discriminate]. intros [|fuel] Hf; [lia|]. cbn [collect_scan]. rewrite HNE by lia. reflexivity.
Qed.

Lemma scan_total d r : real d ->
  exists o, o <> OutOfFuel /\ returns (fun fuel => scan_all fuel d r) o
    /\ (forall es, o = Ok es -> len es <= 128 * ((r_size r + 2047) / 2048)).
Proof.
  intros HR. unfold scan_all, scan_dirent_tree. destruct (region_is_empty r) eqn:E0.
  - exists (Ok []). ssplit; [discriminate| |intros es H; injection H as <-; rewrite (@len_nil dentry); lia].
    exists 1%nat. intros [|fuel] Hf; [lia|]. reflexivity.
  - assert (0 < r_size r) by (unfold region_is_empty in E0; apply N.eqb_neq in E0; lia).
    rewrite region_offset_ok by auto. cbn [bind]. pose proof (HR (2048 * r_sector r + 0) 2048) as H0.
    destruct (d (2048 * r_sector r + 0) 2048) as [b|e|p|]; cbn [io map_err bind]; [| | |congruence].
    + set (s := mkScan (r_sector r) b 0 (r_sector r + (r_size r + 2047) / 2048)).
      destruct (collect_total d HR (scan_measure s) s) as (o & O1 & O2 & O3).
      { intros _. cbn. lia. } { cbn. lia. } { reflexivity. } { reflexivity. }
      exists o. ssplit; auto; [exists (S (N.to_nat (scan_measure s))); intros fuel Hf; apply O2; lia|].
      intros es H1. specialize (O3 es H1). unfold scan_measure, s in O3. cbn [s_end s_sector s_offset] in O3. lia.
    + exists (Err (IOError e)). ssplit; [discriminate|exists 0%nat; auto|discriminate].
    + exists (Panic p). ssplit; [discriminate|exists 0%nat; auto|discriminate].
Qed.
