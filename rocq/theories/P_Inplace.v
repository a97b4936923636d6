(** Packing onto existing data (C129-C131). *)
From Verif Require Import M_Base M_Util M_Layout M_Avl M_Sector M_Dirtab M_Read M_Img M_Dev M_Offset.
From Verif Require Import S_Avl S_Codec S_Table S_Read S_Img S_Inplace.
From Verif Require Import P_Base P_Codec P_Read P_Place P_Dirtab P_Table P_Find P_Map P_Tree P_Tabs P_Disk P_Plan P_Pack P_Run P_Bytes P_Image P_File P_Packed P_Witness P_Geom P_More P_Flaky.
From Coq Require Import Init.Byte Permutation Sorted Lia.
Local Open Scope N_scope.

Definition all_writes (t : ftree) (pls : list placed) (rs : N) : list (N * list byte) := map snd (wl t pls) ++ [(65536, desc_bytes rs)].

(** ** Onto a file that is not empty *)
Theorem pack_over m t : proper t -> small t -> is_fdir t = true ->
  (exists pls rs, laid m t pls rs /\ forall fs fuel old evs, presents fs t -> copies fs t -> (length (dirs [] t) < fuel)%nat ->
     create_xdvdfs_image fuel m file_wdev fs (old, evs) = ((pad (writes (all_writes t pls rs) old), evs ++ run_events t pls ++ [EFinishedPacking]), Ok tt))
  \/ (exists e steps, reason m t e /\ forall fs fuel old evs, presents fs t -> copies fs t -> (length (dirs [] t) < fuel)%nat ->
        create_xdvdfs_image fuel m file_wdev fs (old, evs) = ((writes (flat_map (sw t) steps) old, evs ++ flat_map se steps), Err (InvalidFileStructureError e))).
Proof.
  intros HP Hs Ht. destruct (pack_run m t HP Hs Ht) as (steps & o & Ho & Hrun). destruct Ho as [pls rs HL|steps e Hr Hc Hh].
  - left. exists pls, rs. split; auto. intros fs fuel old evs Hp Hcp Hf. rewrite (Hrun _ _ _ _ _ _ Hp Hf). unfold pbind at 1.
    rewrite (exec_file fs t) by (auto; eapply steps_copies; eauto). rewrite steps_writes, steps_events. fold (all_writes t pls rs).
    cbn [finish]. unfold pbind at 1. rewrite pad_file. unfold report. cbn [fst snd]. rewrite <- app_assoc. reflexivity.
  - right. exists e, steps. split; auto. intros fs fuel old evs Hp Hcp Hf. rewrite (Hrun _ _ _ _ _ _ Hp Hf). unfold pbind at 1. rewrite (exec_file fs t) by auto. reflexivity.
Qed.

Lemma over_holds m t pls rs old d : proper t -> laid m t pls rs ->
  (forall o n b, file_dev (writes (all_writes t pls rs) old) o n = Ok b -> d o n = Ok b) -> image_holds d t.
Proof.
  intros HP HL HD. pose proof (wl_apart m t pls rs HP HL) as HA.
  exists (desc_bytes rs), (mkRegion 33 rs). split; [|split].
  - apply HD. pose proof (writes_view (all_writes t pls rs) old (65536, desc_bytes rs) HA) as H.
    specialize (H ltac:(apply in_or_app; right; left; auto) ltac:(discriminate) 0 2048). cbn [fst snd] in H. rewrite N.add_0_r in H.
    rewrite H by (rewrite desc_len; lia). reflexivity.
  - apply desc_descriptor. pose proof (ld_rs _ _ _ _ HL). unfold u32_modulus. lia.
  - refine (image_tree m t pls rs HP HL _ _ t [] 33 rs (at_here _) (or_introl eq_refl)).
    intros q off b Hin Hne o n Hon. apply HD.
    apply (writes_view (all_writes t pls rs) old (off, b) HA); auto. apply in_or_app. left. apply (in_map snd) in Hin. exact Hin.
Qed.

Lemma over_run m t fs fuel old evs img evs' : source t -> presents fs t -> copies fs t ->
  create_xdvdfs_image fuel m file_wdev fs (old, evs) = ((img, evs'), Ok tt) ->
  exists pls rs, laid m t pls rs /\ img = pad (writes (all_writes t pls rs) old)
    /\ forall fs fuel old evs, presents fs t -> copies fs t -> (length (dirs [] t) < fuel)%nat ->
         create_xdvdfs_image fuel m file_wdev fs (old, evs) = ((pad (writes (all_writes t pls rs) old), evs ++ run_events t pls ++ [EFinishedPacking]), Ok tt).
Proof.
  intros (Ht & HP & Hs) Hp Hc Hrun.
  pose proof (create_more m file_wdev fs fuel (fuel + S (length (dirs [] t))) _ _ _ Hrun ltac:(discriminate) ltac:(lia)) as Hrun'.
  destruct (pack_over m t HP Hs Ht) as [(pls & rs & HL & H)|(e & steps & Hr & H)].
  - exists pls, rs. split; [exact HL|]. split; [|exact H]. rewrite (H fs _ old evs Hp Hc) in Hrun' by lia. injection Hrun' as <- _. reflexivity.
  - rewrite (H fs _ old evs Hp Hc) in Hrun' by lia. discriminate.
Qed.

Lemma c129_lemma m t fs fuel old evs img evs' : source t -> presents fs t -> copies fs t ->
  create_xdvdfs_image fuel m file_wdev fs (old, evs) = ((img, evs'), Ok tt) ->
  image_holds (file_dev img) t /\ len img mod 65536 = 0 /\ len old <= len img.
Proof.
  intros HS Hp Hc Hrun. destruct (over_run m t fs fuel old evs img evs' HS Hp Hc Hrun) as (pls & rs & HL & -> & _). destruct HS as (Ht & HP & Hs).
  ssplit.
  - apply (over_holds m t pls rs old); [assumption..|]. intros o n b E. apply file_dev_app. exact E.
  - apply padded_multiple.
  - unfold pad. rewrite len_app. pose proof (proj1 (writes_len (all_writes t pls rs) old)). lia.
Qed.

Lemma c129_result m t fs : source t -> presents fs t -> copies fs t ->
  exists n r, forall fuel old evs, (n <= fuel)%nat -> snd (create_xdvdfs_image fuel m file_wdev fs (old, evs)) = r.
Proof.
  intros (Ht & HP & Hs) Hp Hc. exists (S (length (dirs [] t))).
  destruct (pack_over m t HP Hs Ht) as [(pls & rs & HL & H)|(e & steps & Hr & H)].
  - exists (Ok tt). intros fuel old evs Hf. rewrite H by (auto; lia). reflexivity.
  - exists (Err (InvalidFileStructureError e)). intros fuel old evs Hf. rewrite H by (auto; lia). reflexivity.
Qed.

Lemma byte_get l i : byte_at l i = get l i.
Proof. reflexivity. Qed.
Lemma pad_get img i : get (pad img) i = get img i.
Proof.
  unfold pad. destruct (N.lt_ge_cases i (len img)) as [L|L]; [apply get_app_l; exact L|].
  rewrite get_app_r, get_fill, get_past by exact L. reflexivity.
Qed.
Lemma writes_either l : ForallOrdPairs apart l -> forall img old i, get (writes l old) i = get (writes l img) i \/ get (writes l old) i = get old i.
Proof.
  intros HA img old i.
  assert (D : (exists w, In w l /\ covers w i) \/ (forall w, In w l -> ~ covers w i)).
  { clear HA. induction l as [|w l IH]; [right; intros w []|]. destruct (covers_dec w i) as [C|C]; [left; exists w; split; [left; reflexivity|exact C]|].
    destruct IH as [(w' & I & C')|N]; [left; exists w'; split; [right; exact I|exact C']|]. right. intros w' [<-|I]; auto. }
  destruct D as [(w & I & C)|N]; [|right; apply writes_other; exact N].
  left. unfold covers in C. replace i with (fst w + (i - fst w)) by lia. rewrite !(writes_at l HA _ w) by (auto; lia). reflexivity.
Qed.
Lemma c129_bytes m t fs fuel old evs img evs' img0 : source t -> presents fs t -> copies fs t ->
  create_xdvdfs_image fuel m file_wdev fs (old, evs) = ((img, evs'), Ok tt) -> packs m t img0 ->
  forall i, byte_at img i = byte_at img0 i \/ byte_at img i = byte_at old i.
Proof.
  intros HS Hp Hc Hrun (fs0 & fuel0 & e0 & e0' & Hp0 & Hc0 & Hrun0) i.
  destruct (over_run m t fs fuel old evs img evs' HS Hp Hc Hrun) as (pls & rs & HL & -> & H).
  pose proof (create_more m file_wdev fs0 fuel0 (fuel0 + S (length (dirs [] t))) _ _ _ Hrun0 ltac:(discriminate) ltac:(lia)) as R0.
  rewrite (H fs0) in R0 by (auto; lia). injection R0 as <- _. rewrite !byte_get, !pad_get.
  destruct HS as (Ht & HP & Hs). apply writes_either. exact (wl_apart m t pls rs HP HL).
Qed.

(** ** Through a wrapper *)
Definition shift_w (base : N) (l : list (N * list byte)) : list (N * list byte) := map (fun w => (fst w + base, snd w)) l.

Lemma exec_offset base (fs : fsys (list byte)) t steps : proper t -> copies_at base fs t -> copies_ok t steps -> forall img evs,
  exec (offset_wdev file_wdev base) fs steps (img, evs) = ((writes (shift_w base (flat_map (sw t) steps)) img, evs ++ flat_map se steps), Ok tt).
Proof.
  intros HP Hc. induction steps as [|s steps IH]; intros Hok img evs.
  - cbn. rewrite app_nil_r. reflexivity.
  - inversion Hok as [|? ? Hs Hok']; subst. specialize (IH Hok'). cbn [exec flat_map]. unfold shift_w. rewrite map_app, writes_app, app_assoc. fold (shift_w base (flat_map (sw t) steps)).
    destruct s as [e|off b|p off size]; cbn [exec_step sw se].
    + unfold pbind at 1. unfold report. cbn [fst snd map]. rewrite IH. reflexivity.
    + unfold pbind at 1. unfold pwrite. cbn. rewrite app_nil_r. apply IH.
    + destruct Hs as (b & Hb & ->).
      unfold pbind at 1. unfold pbind at 1. unfold pcopy. cbn [fst snd]. rewrite (Hc p b img off Hb). cbn [map_err pret].
      rewrite (file_bytes_at t HP p b Hb), app_nil_r. apply IH.
Qed.

(** What the padding really does. *)
Definition pad_at (base : N) (img : list byte) : list byte :=
  if 0 <? len img mod 65536 then img ++ fill (base + (65536 - len img mod 65536)) x00 else img.
Lemma fill_plus a b (x : byte) : fill (a + b) x = fill a x ++ fill b x.
Proof. unfold fill. rewrite N2Nat.inj_add. apply repeat_app. Qed.
Lemma write_beyond img base b : b <> [] -> file_write img (len img + base) b = img ++ fill base x00 ++ b.
Proof.
  intros Hb. apply get_ext.
  - rewrite write_len, !len_app, len_fill. destruct (N.eqb_spec (len b) 0) as [E|E]; [apply nil_len in E; contradiction|lia].
  - intros i Hi. rewrite write_get. destruct (N.leb_spec (len img + base) i); cbn [andb].
    + rewrite get_app_r by lia. rewrite get_app_r by (rewrite len_fill; lia). rewrite len_fill. destruct (N.ltb_spec i (len img + base + len b)); [f_equal; lia|].
      rewrite !get_past by lia. reflexivity.
    + destruct (N.lt_ge_cases i (len img)).
      * rewrite get_app_l by lia. reflexivity.
      * rewrite get_app_r by lia. rewrite get_app_l by (rewrite len_fill; lia). rewrite get_fill. apply get_past. lia.
Qed.
Lemma pad_offset base img evs : pad_image (offset_wdev file_wdev base) (img, evs) = ((pad_at base img, evs), Ok tt).
Proof.
  unfold pad_image, pbind, M_Img.plen. cbn [offset_wdev file_wdev dev_len fst snd map_err]. unfold pad_at.
  change (32 * 2048) with 65536. destruct (N.ltb_spec 0 (len img mod 65536)) as [L|L].
  - unfold pwrite. cbn [offset_wdev file_wdev dev_write fst snd map_err]. rewrite write_beyond, fill_plus; [reflexivity|].
    intros E. assert (X : len (fill (65536 - len img mod 65536) x00) = 0) by (rewrite E; reflexivity). rewrite len_fill in X. lia.
  - reflexivity.
Qed.

Lemma skip_write base img off b : skipn (N.to_nat base) (file_write img (off + base) b) = file_write (skipn (N.to_nat base) img) off b.
Proof.
  assert (SL : forall l : list byte, len (skipn (N.to_nat base) l) = len l - base) by (intros l; unfold len; rewrite skipn_length; lia).
  apply get_ext.
  - rewrite SL, !write_len, SL. destruct (N.eqb_spec (len b) 0); lia.
  - intros i _. rewrite get_skipn, !write_get, get_skipn, N2Nat.id.
    replace (off + base <=? base + i) with (off <=? i) by (destruct (N.leb_spec off i), (N.leb_spec (off + base) (base + i)); lia || reflexivity).
    replace (base + i <? off + base + len b) with (i <? off + len b) by (destruct (N.ltb_spec i (off + len b)), (N.ltb_spec (base + i) (off + base + len b)); lia || reflexivity).
    replace (base + i - (off + base)) with (i - off) by lia. reflexivity.
Qed.
Lemma skip_writes base l : forall img, skipn (N.to_nat base) (writes (shift_w base l) img) = writes l (skipn (N.to_nat base) img).
Proof.
  induction l as [|w l IH]; intros img; [reflexivity|].
  change (writes (shift_w base (w :: l)) img) with (writes (shift_w base l) (file_write img (fst w + base) (snd w))).
  change (writes (w :: l) (skipn (N.to_nat base) img)) with (writes l (file_write (skipn (N.to_nat base) img) (fst w) (snd w))).
  rewrite IH, skip_write. reflexivity.
Qed.
Lemma shift_low base l img i : i < base -> get (writes (shift_w base l) img) i = get img i.
Proof.
  intros Hi. apply writes_other. intros w Hw. unfold shift_w in Hw. apply in_map_iff in Hw as (w0 & <- & _). unfold covers. cbn [fst snd]. lia.
Qed.

(** A part of a file as a device. *)
Lemma file_dev_skip base img o n : base <= len img -> file_dev (skipn (N.to_nat base) img) o n = offset_dev (file_dev img) base o n.
Proof.
  intros H. unfold offset_dev, file_dev. destruct (n =? 0); [reflexivity|].
  assert (SL : len (skipn (N.to_nat base) img) = len img - base) by (unfold len; rewrite skipn_length; lia). rewrite SL.
  destruct (N.leb_spec (o + n) (len img - base)), (N.leb_spec (o + base + n) (len img)); try lia; [|reflexivity].
  f_equal. apply get_ext; [rewrite !slice_len, SL; lia|]. intros i Hi. rewrite slice_len, SL in Hi. rewrite !get_slice, get_skipn by lia. f_equal. lia.
Qed.


Theorem pack_offset m t base : proper t -> small t -> is_fdir t = true ->
  (exists pls rs, laid m t pls rs /\ forall fs fuel old evs, presents fs t -> copies_at base fs t -> (length (dirs [] t) < fuel)%nat ->
     create_xdvdfs_image fuel m (offset_wdev file_wdev base) fs (old, evs)
     = ((pad_at base (writes (shift_w base (all_writes t pls rs)) old), evs ++ run_events t pls ++ [EFinishedPacking]), Ok tt))
  \/ (exists e steps, reason m t e /\ forall fs fuel old evs, presents fs t -> copies_at base fs t -> (length (dirs [] t) < fuel)%nat ->
        create_xdvdfs_image fuel m (offset_wdev file_wdev base) fs (old, evs)
        = ((writes (shift_w base (flat_map (sw t) steps)) old, evs ++ flat_map se steps), Err (InvalidFileStructureError e))).
Proof.
  intros HP Hs Ht. destruct (pack_run m t HP Hs Ht) as (steps & o & Ho & Hrun). destruct Ho as [pls rs HL|steps e Hr Hc Hh].
  - left. exists pls, rs. split; auto. intros fs fuel old evs Hp Hcp Hf. rewrite (Hrun _ _ _ _ _ _ Hp Hf). unfold pbind at 1.
    rewrite (exec_offset base fs t) by (auto; eapply steps_copies; eauto). rewrite steps_writes, steps_events. fold (all_writes t pls rs).
    cbn [finish]. unfold pbind at 1. rewrite pad_offset. unfold report. cbn [fst snd]. rewrite <- app_assoc. reflexivity.
  - right. exists e, steps. split; auto. intros fs fuel old evs Hp Hcp Hf. rewrite (Hrun _ _ _ _ _ _ Hp Hf). unfold pbind at 1. rewrite (exec_offset base fs t) by auto. reflexivity.
Qed.

Lemma offset_run m t base fs fuel old evs img evs' : source t -> presents fs t -> copies_at base fs t ->
  create_xdvdfs_image fuel m (offset_wdev file_wdev base) fs (old, evs) = ((img, evs'), Ok tt) ->
  exists pls rs, laid m t pls rs /\ img = pad_at base (writes (shift_w base (all_writes t pls rs)) old).
Proof.
  intros (Ht & HP & Hs) Hp Hc Hrun.
  pose proof (create_more m (offset_wdev file_wdev base) fs fuel (fuel + S (length (dirs [] t))) _ _ _ Hrun ltac:(discriminate) ltac:(lia)) as Hrun'.
  destruct (pack_offset m t base HP Hs Ht) as [(pls & rs & HL & H)|(e & steps & Hr & H)].
  - exists pls, rs. split; [exact HL|]. rewrite (H fs _ old evs Hp Hc) in Hrun' by lia. injection Hrun' as <- _. reflexivity.
  - rewrite (H fs _ old evs Hp Hc) in Hrun' by lia. discriminate.
Qed.

Lemma pad_at_app base img : exists z, pad_at base img = img ++ z.
Proof. unfold pad_at. destruct (0 <? len img mod 65536); [eauto|exists []; rewrite app_nil_r; reflexivity]. Qed.

Lemma c130_lemma m t base fs fuel old evs img evs' : base <= len old -> source t -> presents fs t -> copies_at base fs t ->
  create_xdvdfs_image fuel m (offset_wdev file_wdev base) fs (old, evs) = ((img, evs'), Ok tt) ->
  image_holds (offset_dev (file_dev img) base) t /\ (forall i, i < base -> byte_at img i = byte_at old i) /\ len old <= len img.
Proof.
  intros HB HS Hp Hc Hrun. destruct (offset_run m t base fs fuel old evs img evs' HS Hp Hc Hrun) as (pls & rs & HL & ->). destruct HS as (Ht & HP & Hs).
  pose proof (proj1 (writes_len (shift_w base (all_writes t pls rs)) old)) as LL.
  destruct (pad_at_app base (writes (shift_w base (all_writes t pls rs)) old)) as (z & ->). ssplit.
  - apply (over_holds m t pls rs (skipn (N.to_nat base) old)); [assumption..|]. intros o n b E.
    rewrite <- skip_writes, file_dev_skip in E by lia. unfold offset_dev in *. apply file_dev_app. exact E.
  - intros i Hi. rewrite !byte_get, get_app_l by lia. apply shift_low. exact Hi.
  - rewrite len_app. lia.
Qed.

Lemma c130_result m t base fs0 fs : source t -> presents fs0 t -> copies fs0 t -> presents fs t -> copies_at base fs t ->
  exists n, forall fuel old evs, (n <= fuel)%nat ->
    snd (create_xdvdfs_image fuel m (offset_wdev file_wdev base) fs (old, evs)) = snd (create_xdvdfs_image fuel m file_wdev fs0 ([], [])).
Proof.
  intros (Ht & HP & Hs) Hp0 Hc0 Hp Hc. exists (S (length (dirs [] t))). intros fuel old evs Hf.
  destruct (pack_run m t HP Hs Ht) as (steps & o & Ho & Hrun). rewrite !Hrun by (auto; lia). unfold pbind.
  assert (CO : copies_ok t steps) by (destruct Ho as [pls rs HL|steps e Hr Hco Hh]; [eapply steps_copies; eauto|exact Hco]).
  rewrite (exec_offset base fs t), (exec_file fs0 t) by auto. destruct o as [e|]; cbn [finish]; [reflexivity|].
  unfold pbind. rewrite pad_offset, pad_file. reflexivity.
Qed.

(** The length, when the new image is not longer than the old one. *)
Lemma writes_within l : forall img n, len img = n -> (forall w, In w l -> snd w <> [] -> fst w + len (snd w) <= n) -> len (writes l img) = n.
Proof.
  induction l as [|w l IH]; intros img n L H; [exact L|]. change (writes (w :: l) img) with (writes l (file_write img (fst w) (snd w))).
  apply IH; [|intros w' I; apply H; right; exact I]. rewrite write_len. specialize (H w (or_introl eq_refl)).
  destruct (N.eqb_spec (len (snd w)) 0) as [E|E]; [exact L|]. assert (snd w <> []) by (intros X; rewrite X in E; apply E; reflexivity). specialize (H H0). lia.
Qed.
Lemma c130_length m t base fs fuel old evs img evs' img0 : source t -> presents fs t -> copies_at base fs t -> packs m t img0 -> base + len img0 <= len old ->
  create_xdvdfs_image fuel m (offset_wdev file_wdev base) fs (old, evs) = ((img, evs'), Ok tt) ->
  len img = if len old mod 65536 =? 0 then len old else len old + base + (65536 - len old mod 65536).
Proof.
  intros HS Hp Hc (fs0 & fuel0 & e0 & e0' & Hp0 & Hc0 & Hrun0) HB Hrun.
  destruct (over_run m t fs0 fuel0 [] e0 img0 e0' HS Hp0 Hc0 Hrun0) as (pls0 & rs0 & _ & E0 & H0).
  destruct HS as (Ht & HP & Hs).
  pose proof (create_more m (offset_wdev file_wdev base) fs fuel (fuel + S (length (dirs [] t))) _ _ _ Hrun ltac:(discriminate) ltac:(lia)) as Hrun'.
  destruct (pack_run m t HP Hs Ht) as (steps & o & Ho & HR).
  assert (CO : copies_ok t steps) by (destruct Ho as [pls rs HL|steps e Hr Hco Hh]; [eapply steps_copies; eauto|exact Hco]).
  rewrite HR in Hrun' by (auto; lia). unfold pbind in Hrun'. rewrite (exec_offset base fs t) in Hrun' by auto.
  specialize (H0 fs0 (S (length (dirs [] t))) [] [] Hp0 Hc0 ltac:(lia)). rewrite HR in H0 by (auto; lia). unfold pbind in H0. rewrite (exec_file fs0 t) in H0 by auto.
  destruct o as [e|]; cbn [finish] in *; [discriminate|]. unfold pbind in Hrun', H0. rewrite pad_offset in Hrun'. rewrite pad_file in H0.
  cbn [report fst snd] in Hrun', H0. injection Hrun' as <- _. injection H0 as H0 _. rewrite <- E0 in H0. clear E0.
  assert (W : len (writes (shift_w base (flat_map (sw t) steps)) old) = len old).
  { apply writes_within; [reflexivity|]. intros w Hw. unfold shift_w in Hw. apply in_map_iff in Hw as (w0 & <- & Hw0). cbn [fst snd]. intros Hne.
    pose proof (proj1 (proj2 (writes_len (flat_map (sw t) steps) [])) w0 Hw0 Hne) as L.
    assert (len (writes (flat_map (sw t) steps) []) <= len img0) by (rewrite <- H0; unfold pad; rewrite len_app; lia). lia. }
  unfold pad_at. rewrite W. destruct (N.ltb_spec 0 (len old mod 65536)), (N.eqb_spec (len old mod 65536) 0); try lia. rewrite len_app, len_fill, W. lia.
Qed.

(** The default copier through a wrapper. *)
Lemma copy_shift {D} base src (W : wdev D) off_in off_out size dest :
  rw_copy src (offset_wdev W base) off_in off_out size dest = rw_copy src W off_in (off_out + base) size dest.
Proof.
  unfold rw_copy. generalize (S (N.to_nat (size / COPY_BUFFER))) as fuel, 0 as copied. intros fuel. revert dest.
  induction fuel as [|fuel IH]; intros dest copied; cbn [rw_copy_loop]; (destruct (copied <? size); [|reflexivity]); [reflexivity|].
  destruct (map_err BlockDevReadErr (src (off_in + copied) (N.min COPY_BUFFER (size - copied)))) as [b| | |]; try reflexivity.
  cbn [offset_wdev dev_write]. replace (off_out + copied + base) with (off_out + base + copied) by lia.
  destruct (dev_write W dest (off_out + base + copied) b) as [dest' r]. destruct (map_err BlockDevWriteErr r); try reflexivity. apply IH.
Qed.
Lemma shifted_ok base fs t : presents fs t -> copies fs t -> presents (shifted base fs) t /\ copies_at base (shifted base fs) t.
Proof. intros Hp Hc. split; [exact Hp|]. intros p b img off Hb. apply (Hc p b img (off + base) Hb). Qed.

(** ** The position of a wrapper *)
Lemma c131_lemma base len pos : base <= pos ->
  offset_seek base len pos (SeekCurrent 0) = Ok pos /\ offset_seek base len pos (SeekStart pos) = Ok (base + pos).
Proof. intros H. split; [|reflexivity]. cbn. rewrite Z.add_0_r. destruct (Z.ltb_spec (Z.of_N pos) 0); [lia|]. rewrite N2Z.id. reflexivity. Qed.
Lemma c131_start base len pos n file : offset_seek base len pos (SeekStart n) = Ok (base + n)
  /\ forall k, offset_dev (file_dev file) base n k = file_dev file (base + n) k.
Proof. split; [reflexivity|]. intros k. unfold offset_dev. f_equal. lia. Qed.

(** ** Packing a partition again in its place *)
Lemma grows m t img0 : source t -> packs m t img0 -> len img0 < 100000000 ->
  exists old fs fuel img evs, offset_wrapper_new (file_dev old) = Ok 34078720 /\ len old = 34078720 + len img0 + 1
    /\ presents fs t /\ copies_at 34078720 fs t
    /\ create_xdvdfs_image fuel m (offset_wdev file_wdev 34078720) fs (old, []) = ((img, evs), Ok tt)
    /\ len img = len old + 34078720 + 65535.
Proof.
  intros HS Hpk LS.
  assert (PS : presents (std_fs t) t /\ copies (std_fs t) t) by (split; [apply std_presents|apply std_copies]; apply HS). destruct PS as [Hp Hc].
  destruct (shifted_ok 34078720 _ _ Hp Hc) as [Hp' Hc'].
  destruct (packed_image_holds m t img0 HS Hpk) as (v & V & _).
  assert (M : len img0 mod 65536 = 0).
  { destruct Hpk as (fs0 & f0 & e0 & e0' & P0 & C0 & R0). apply (c129_lemma m t fs0 f0 [] e0 img0 e0' HS P0 C0 R0). }
  pose proof (fill_zero 34078720) as Z. assert (L : len (fill 34078720 x00) = 34078720) by apply len_fill.
  revert Z L. generalize (fill 34078720 x00) as z. intros z Z L.
  assert (OW : forall x, read_volume (offset_dev (file_dev x) 0) = read_volume (file_dev x)) by (intros x; apply rv_ext; intros o n; unfold offset_dev; rewrite N.add_0_r; reflexivity).
  assert (LB : 67584 <= len img0).
  { destruct (N.le_gt_cases 67584 (len img0)) as [Hle|Hgt]; [exact Hle|]. rewrite <- OW, rv_far in V by lia. discriminate. }
  assert (RV : read_volume (file_dev (img0 ++ [x00])) = Ok v) by (rewrite <- OW, rv_near, OW by lia; exact V).
  set (old := z ++ img0 ++ [x00]).
  assert (LO : len old = 34078720 + len img0 + 1) by (unfold old; rewrite !len_app, L; change (len [x00]) with 1; lia).
  assert (B : offset_wrapper_new (file_dev old) = Ok 34078720).
  { unfold offset_wrapper_new, XDVD_OFFSETS. cbn [probe]. rewrite (rv_far old 405798912), (rv_far old 265879552) by lia. unfold old. rewrite Z by lia.
    rewrite (rv_after z _ _ L), RV. reflexivity. }
  destruct HS as (Ht & HP & Hs). pose proof (conj Ht (conj HP Hs)) as HS.
  destruct (pack_offset m t 34078720 HP Hs Ht) as [(pls & rs & HL & H)|(e & steps & Hr & H)].
  2:{ exfalso. destruct Hpk as (fs0 & f0 & e0 & e0' & P0 & C0 & R0). destruct (over_run m t fs0 f0 [] e0 img0 e0' HS P0 C0 R0) as (pls0 & rs0 & _ & _ & HR).
      destruct (c130_result m t 34078720 fs0 (shifted 34078720 (std_fs t)) HS P0 C0 Hp' Hc') as (n & Hn).
      specialize (Hn (n + S (length (dirs [] t)))%nat old [] ltac:(lia)). rewrite H in Hn by (auto; lia). rewrite HR in Hn by (auto; lia). discriminate. }
  specialize (H (shifted 34078720 (std_fs t)) (S (length (dirs [] t))) old [] Hp' Hc' ltac:(lia)).
  do 5 eexists. split; [exact B|]. split; [exact LO|]. split; [exact Hp'|]. split; [exact Hc'|]. split; [exact H|].
  assert (R : 34078720 + len img0 <= len old) by lia.
  rewrite (c130_length m t 34078720 _ _ _ _ _ _ img0 HS Hp' Hc' Hpk R H).
  assert (M1 : len old mod 65536 = 1) by (rewrite LO; replace (34078720 + len img0 + 1) with (len img0 + 1 + 520 * 65536) by lia; rewrite N.mod_add by lia; rewrite N.add_mod, M by lia; reflexivity).
  rewrite M1. change (1 =? 0) with false. cbv iota. lia.
Qed.
