(** Byte-wise view of growable files. *)
From Verif Require Import M_Base M_Util M_Read M_Img P_Base P_Disk.
From Coq Require Import Init.Byte Lia.
Local Open Scope N_scope.

Definition get (l : list byte) (i : N) : byte := nth (N.to_nat i) l x00.

Lemma get_past l i : len l <= i -> get l i = x00.
Proof. unfold get, len. intros H. apply nth_overflow. lia. Qed.
Lemma get_fill n i : get (fill n x00) i = x00.
Proof.
  unfold get, fill. generalize (N.to_nat n) (N.to_nat i). induction n0 as [|k IH]; intros [|j]; cbn; auto.
Qed.
Lemma get_app_l a b i : i < len a -> get (a ++ b) i = get a i.
Proof. unfold get, len. intros H. apply app_nth1. lia. Qed.
Lemma get_app_r a b i : len a <= i -> get (a ++ b) i = get b (i - len a).
Proof. unfold get, len. intros H. rewrite app_nth2 by lia. f_equal. lia. Qed.
Lemma nth_skipn' {A} n (l : list A) i d : nth i (skipn n l) d = nth (n + i) l d.
Proof. revert l. induction n as [|n IH]; intros [|x l]; cbn; auto. destruct i; reflexivity. Qed.
Lemma get_skipn n l i : get (skipn n l) i = get l (N.of_nat n + i).
Proof. unfold get. rewrite nth_skipn'. f_equal. lia. Qed.
Lemma nth_firstn' {A} n (l : list A) i d : (i < n)%nat -> nth i (firstn n l) d = nth i l d.
Proof. revert l i. induction n as [|n IH]; intros [|x l] i H; cbn; try lia; auto. destruct i; auto. apply IH. lia. Qed.
Lemma get_firstn n l i : i < N.of_nat n -> get (firstn n l) i = get l i.
Proof. unfold get. intros H. apply nth_firstn'. lia. Qed.
Lemma get_slice l o n i : i < n -> get (slice l o n) i = get l (o + i).
Proof. intros H. unfold slice. rewrite get_firstn by lia. rewrite get_skipn. f_equal. lia. Qed.
Lemma slice_len {A} (l : list A) o n : len (slice l o n) = N.min n (len l - o).
Proof. unfold slice, len. rewrite firstn_length, skipn_length. lia. Qed.

Lemma get_ext a b : len a = len b -> (forall i, i < len a -> get a i = get b i) -> a = b.
Proof.
  intros H1 H2. apply nth_ext with (d := x00) (d' := x00); [unfold len in H1; lia|].
  intros i Hi. specialize (H2 (N.of_nat i)). unfold get in H2. rewrite Nat2N.id in H2. apply H2. unfold len. lia.
Qed.

Lemma slice_is l o b : o + len b <= len l -> (forall i, i < len b -> get l (o + i) = get b i) -> slice l o (len b) = b.
Proof.
  intros H1 H2. apply get_ext.
  - rewrite slice_len. lia.
  - intros i Hi. rewrite slice_len in Hi. rewrite get_slice by lia. apply H2. lia.
Qed.

Lemma nil_len {A} (l : list A) : len l = 0 -> l = [].
Proof. destruct l; [reflexivity|]. unfold len. cbn. lia. Qed.

Lemma write_len img off b : len (file_write img off b) = if len b =? 0 then len img else N.max (len img) (off + len b).
Proof.
  destruct b as [|x b]; [reflexivity|]. set (bb := x :: b). change (file_write img off bb) with
    (firstn (N.to_nat off) (img ++ fill (off - len img) x00) ++ bb ++ skipn (N.to_nat (off + len bb)) img).
  destruct (N.eqb_spec (len bb) 0) as [E|E]; [unfold bb, len in E; cbn in E; lia|].
  unfold len in *. rewrite !app_length, firstn_length, skipn_length, app_length.
  assert (Hf : length (fill (off - N.of_nat (length img)) x00) = N.to_nat (off - N.of_nat (length img))).
  { pose proof (len_fill (off - N.of_nat (length img)) x00) as X. unfold len in X. lia. }
  rewrite Hf. lia.
Qed.

Lemma write_get img off b i : get (file_write img off b) i = if (off <=? i) && (i <? off + len b) then get b (i - off) else get img i.
Proof.
  destruct b as [|x b].
  - cbn [file_write]. rewrite (@len_nil byte), N.add_0_r. destruct (N.leb_spec off i), (N.ltb_spec i off); cbn; auto; lia.
  - set (bb := x :: b). change (file_write img off bb) with
    (firstn (N.to_nat off) (img ++ fill (off - len img) x00) ++ bb ++ skipn (N.to_nat (off + len bb)) img).
    assert (Hl : len (firstn (N.to_nat off) (img ++ fill (off - len img) x00)) = off).
    { unfold len. rewrite firstn_length, app_length. pose proof (len_fill (off - len img) x00) as X. unfold len in *. lia. }
    destruct (N.leb_spec off i); cbn [andb].
    + rewrite get_app_r by lia. rewrite Hl. destruct (N.ltb_spec i (off + len bb)).
      * rewrite get_app_l by lia. reflexivity.
      * rewrite get_app_r by lia. rewrite get_skipn. f_equal. lia.
    + rewrite get_app_l by lia. rewrite get_firstn by lia.
      destruct (N.lt_ge_cases i (len img)).
      * apply get_app_l. lia.
      * rewrite get_app_r by lia. rewrite get_fill. symmetry. apply get_past. lia.
Qed.

(** A sequence of writes. *)
Definition writes (l : list (N * list byte)) (img : list byte) : list byte := fold_left (fun g w => file_write g (fst w) (snd w)) l img.

Definition covers (w : N * list byte) (i : N) : Prop := fst w <= i < fst w + len (snd w).
Definition apart (w w' : N * list byte) : Prop := fst w + len (snd w) <= fst w' \/ fst w' + len (snd w') <= fst w.

Lemma writes_app a b img : writes (a ++ b) img = writes b (writes a img).
Proof. apply fold_left_app. Qed.

Lemma writes_other l : forall img i, (forall w, In w l -> ~ covers w i) -> get (writes l img) i = get img i.
Proof.
  induction l as [|w l IH]; intros img i H; [reflexivity|]. unfold writes in *. cbn [fold_left].
  rewrite IH by (intros w' Hw'; apply H; right; auto). rewrite write_get.
  specialize (H w (or_introl eq_refl)). unfold covers in H.
  destruct (N.leb_spec (fst w) i), (N.ltb_spec i (fst w + len (snd w))); cbn; auto. exfalso. apply H. lia.
Qed.

Lemma writes_at l : ForallOrdPairs apart l -> forall img w i, In w l -> i < len (snd w) -> get (writes l img) (fst w + i) = get (snd w) i.
Proof.
  induction 1 as [|w0 l H1 H2 IH]; intros img w i Hin Hi; [destruct Hin|].
  destruct Hin as [->|Hin].
  - change (writes (w :: l) img) with (writes l (file_write img (fst w) (snd w))). rewrite writes_other.
    + rewrite write_get. destruct (N.leb_spec (fst w) (fst w + i)), (N.ltb_spec (fst w + i) (fst w + len (snd w))); cbn; try lia.
      f_equal. lia.
    + intros w' Hw'. rewrite Forall_forall in H1. specialize (H1 _ Hw'). unfold apart, covers in *. lia.
  - change (writes (w0 :: l) img) with (writes l (file_write img (fst w0) (snd w0))). apply IH; auto.
Qed.

Lemma writes_len l : forall img, len img <= len (writes l img)
  /\ (forall w, In w l -> snd w <> [] -> fst w + len (snd w) <= len (writes l img))
  /\ (len (writes l img) = len img \/ exists w, In w l /\ snd w <> [] /\ len (writes l img) = fst w + len (snd w)).
Proof.
  induction l as [|w l IH]; intros img; [cbn; split; [lia|split; [tauto|auto]]|].
  change (writes (w :: l) img) with (writes l (file_write img (fst w) (snd w))).
  destruct (IH (file_write img (fst w) (snd w))) as (H1 & H2 & H3). pose proof (write_len img (fst w) (snd w)) as Hw.
  destruct (N.eqb_spec (len (snd w)) 0) as [E|E].
  - rewrite Hw in *. ssplit; auto.
    + intros w' [<-|Hin] Hn; auto. apply nil_len in E. congruence.
    + destruct H3 as [H3|(w' & A & B & C)]; [left; auto|right; exists w'; cbn; auto].
  - ssplit; try lia.
    + intros w' [<-|Hin] Hn; [lia|auto].
    + destruct H3 as [H3|(w' & A & B & C)]; [|right; exists w'; cbn; auto].
      destruct (N.max_spec (len img) (fst w + len (snd w))) as [[A B]|[A B]]; rewrite B in Hw.
      * right. exists w. ssplit; [left; auto| |lia]. intros X. rewrite X in E. apply E. reflexivity.
      * left. lia.
Qed.

Lemma writes_view l img w : ForallOrdPairs apart l -> In w l -> snd w <> [] -> view (file_dev (writes l img)) (fst w) (snd w).
Proof.
  intros H Hin Hn o n Hon. unfold file_dev. destruct (writes_len l img) as (_ & HL & _). specialize (HL w Hin Hn).
  destruct (N.eqb_spec n 0) as [->|Hn0].
  - rewrite (nil_len (slice (snd w) o 0)); [reflexivity|]. rewrite slice_len. lia.
  - destruct (N.leb_spec (fst w + o + n) (len (writes l img))); [|lia]. f_equal. apply get_ext.
    + rewrite !slice_len. lia.
    + intros i Hi. rewrite slice_len in Hi. rewrite !get_slice by lia. rewrite <- N.add_assoc. apply writes_at; auto. lia.
Qed.
