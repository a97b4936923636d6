(** Devices and copiers (C34-C36, C55, C57, C59). *)
From Verif Require Import M_Base M_Util M_Layout M_Avl M_Sector M_Dirtab M_Read M_Img M_Dev.
From Verif Require Import S_Avl S_Codec S_Table S_Read S_Img S_Dev.
From Verif Require Import P_Base P_Codec P_Place P_Dirtab P_Table P_Find P_Read P_Witness P_Map P_Tree P_Tabs P_Scan P_Disk P_Plan P_Pack P_Run P_Bytes P_Image P_File P_Back P_Packed P_Param P_More P_Geom.
From Coq Require Import Init.Byte Permutation Sorted Lia.
Local Open Scope N_scope.

Lemma put_write buf off b : off + len b <= len buf -> put buf off b = file_write buf off b.
Proof.
  intros H. destruct b as [|x b]; unfold put.
  - cbn [app file_write len]. rewrite (@len_nil byte), N.add_0_r. apply firstn_skipn.
  - set (bb := x :: b) in *. change (file_write buf off bb) with
    (firstn (N.to_nat off) (buf ++ fill (off - len buf) x00) ++ bb ++ skipn (N.to_nat (off + len bb)) buf).
    replace (off - len buf) with 0 by lia. change (fill 0 x00) with (@nil byte). rewrite app_nil_r. reflexivity.
Qed.
Lemma put_len buf off b : off + len b <= len buf -> len (put buf off b) = len buf.
Proof. intros H. rewrite put_write, write_len by auto. destruct (N.eqb_spec (len b) 0); lia. Qed.
Lemma put_stored buf off b : off + len b <= len buf -> stored_at buf (put buf off b) off b.
Proof. intros H i. rewrite put_write by auto. apply write_get. Qed.
Lemma stored_write buf buf' off b : len buf' = len buf -> off + len b <= len buf \/ b = [] -> stored_at buf buf' off b -> buf' = file_write buf off b.
Proof.
  intros HL H HS. apply get_ext.
  - rewrite write_len. destruct H as [H| ->]; [|exact HL]. destruct (N.eqb_spec (len b) 0); lia.
  - intros i _. rewrite write_get. apply HS.
Qed.

(** ** C35 *)
Lemma c35_write_lemma buf off b :
  (off < len buf /\ off + len b <= len buf /\ exists buf', mem_write buf off b = (buf', Ok tt) /\ len buf' = len buf /\ stored_at buf buf' off b)
  \/ (~ (off < len buf /\ off + len b <= len buf) /\ mem_write buf off b = (buf, Err OutOfBounds)).
Proof.
  unfold mem_write. destruct (N.leb_spec (len buf) off); cbn [orb]; [right; split; [lia|reflexivity]|].
  destruct (N.ltb_spec (len buf - off) (len b)); [right; split; [lia|reflexivity]|]. left. ssplit; [lia|lia|].
  eexists. split; [reflexivity|]. split; [apply put_len; lia|apply put_stored; lia].
Qed.

Lemma slice_bytes l o n : o + n <= len l -> len (slice l o n) = n /\ forall i, i < n -> byte_at (slice l o n) i = byte_at l (o + i).
Proof. intros H. split; [rewrite slice_len; lia|]. intros i Hi. apply get_slice. exact Hi. Qed.

Lemma c35_read_lemma buf off n :
  (off < len buf /\ off + n <= len buf /\ exists b, mem_dev buf off n = Ok b /\ len b = n /\ forall i, i < n -> byte_at b i = byte_at buf (off + i))
  \/ (len buf <= off /\ mem_dev buf off n = Err OutOfBounds)
  \/ (off < len buf < off + n /\ mem_dev buf off n = Panic PIndex).
Proof.
  unfold mem_dev. destruct (N.leb_spec (len buf) off); [right; left; auto|].
  destruct (N.eqb_spec (N.min (len buf - off) n) n).
  - left. ssplit; [lia|lia|]. exists (slice buf off n). split; [reflexivity|]. apply slice_bytes. lia.
  - right; right. split; [lia|reflexivity].
Qed.

(** ** C36 *)
Lemma c36_zero_lemma src dest input size : size <= len dest ->
  exists dest', slice_copy src dest input 0 size = (dest', Ok size) /\ len dest' = len dest
   /\ stored_at dest dest' 0 (slice src input size ++ fill (size - len (slice src input size)) x00).
Proof.
  intros H. unfold slice_copy. destruct (N.ltb_spec (len dest) 0); [lia|]. rewrite N.sub_0_r. replace (N.min size (len dest)) with size by lia.
  rewrite !N.add_0_l. set (b := slice src input size). assert (Hb : len b <= size) by (unfold b; rewrite slice_len; lia).
  destruct (N.ltb_spec size (len b)); [lia|]. eexists. split; [reflexivity|].
  assert (L1 : len (put dest 0 b) = len dest) by (apply put_len; lia).
  split; [rewrite put_len; rewrite ?len_fill; lia|].
  intros i. pose proof (put_stored (put dest 0 b) (len b) (fill (size - len b) x00)) as X1. rewrite X1 by (rewrite len_fill; lia).
  pose proof (put_stored dest 0 b) as X2. rewrite X2 by lia. rewrite len_app, !len_fill, !N.add_0_l.
  destruct (N.leb_spec 0 i); [|lia]. cbn [andb]. rewrite N.sub_0_r.
  destruct (N.leb_spec (len b) i); cbn [andb].
  - destruct (N.ltb_spec i (len b + (size - len b))).
    + change byte_at with get. rewrite get_app_r by lia. reflexivity.
    + destruct (N.ltb_spec i (len b)); [lia|reflexivity].
  - destruct (N.ltb_spec i (len b)); [|lia]. destruct (N.ltb_spec i (len b + (size - len b))); [|lia].
    change byte_at with get. rewrite get_app_l by lia. reflexivity.
Qed.

Lemma c36_panics_lemma src dest input output size : 0 < output -> output + size <= len dest -> input + size <= len src ->
  snd (slice_copy src dest input output size) = Panic PIndex.
Proof.
  intros H1 H2 H3. unfold slice_copy. destruct (N.ltb_spec (len dest) output); [lia|]. replace (N.min size (len dest - output)) with size by lia.
  rewrite slice_len. replace (N.min size (len src - input)) with size by lia. destruct (N.ltb_spec size (output + size)); [reflexivity|lia].
Qed.

(** ** C34 *)
Lemma slice_full {A} (l : list A) : slice l 0 (len l) = l.
Proof. pose proof (slice_app_l l []) as X. rewrite app_nil_r in X. exact X. Qed.

Lemma write_write img p a b : file_write (file_write img p a) (p + len a) b = file_write img p (a ++ b).
Proof.
  apply get_ext.
  - rewrite !write_len, len_app. destruct (N.eqb_spec (len a) 0), (N.eqb_spec (len b) 0), (N.eqb_spec (len a + len b) 0); lia.
  - intros i _. rewrite !write_get, len_app. 
    destruct (N.leb_spec p i), (N.leb_spec (p + len a) i), (N.ltb_spec i (p + len a + len b)), (N.ltb_spec i (p + len a)), (N.ltb_spec i (p + (len a + len b))); cbn [andb]; try lia; auto.
    + rewrite get_app_r by lia. f_equal. lia.
    + rewrite get_app_l by lia. reflexivity.
Qed.

Lemma slice_join {A} (l : list A) i n k : slice l i n ++ slice l (i + n) k = slice l i (n + k).
Proof.
  unfold slice. assert (E : skipn (N.to_nat (i + n)) l = skipn (N.to_nat n) (skipn (N.to_nat i) l)).
  { rewrite N2Nat.inj_add. generalize (N.to_nat i) as a, (N.to_nat n) as c. clear. intros a c. revert l. induction a as [|a IH]; intros l; [reflexivity|].
    destruct l as [|x l]; [destruct c; reflexivity|]. cbn. apply IH. }
  rewrite E, N2Nat.inj_add. generalize (skipn (N.to_nat i) l) as x. generalize (N.to_nat n) as a, (N.to_nat k) as c. clear.
  induction a as [|a IH]; intros c x; [reflexivity|]. destruct x as [|y x]; cbn; [destruct c; reflexivity|]. f_equal. apply IH.
Qed.

Definition chunks_left (size copied : N) : N := (size - copied + (COPY_BUFFER - 1)) / COPY_BUFFER.

Lemma div_up_step a c : 0 < c -> c < a -> (a - c + (c - 1)) / c = (a + (c - 1)) / c - 1.
Proof. intros H1 H2. replace (a + (c - 1)) with ((a - c + (c - 1)) + 1 * c) by lia. rewrite N.div_add by lia. lia. Qed.

Lemma left_step size copied : copied < size ->
  chunks_left size (copied + N.min COPY_BUFFER (size - copied)) + 1 <= chunks_left size copied.
Proof.
  intros H. unfold chunks_left. destruct (N.le_gt_cases (size - copied) COPY_BUFFER) as [Hl|Hl].
  - replace (size - (copied + N.min COPY_BUFFER (size - copied))) with 0 by lia.
    replace ((0 + (COPY_BUFFER - 1)) / COPY_BUFFER) with 0 by reflexivity.
    apply N.div_le_lower_bound; unfold COPY_BUFFER in *; lia.
  - replace (size - (copied + N.min COPY_BUFFER (size - copied))) with (size - copied - COPY_BUFFER) by lia.
    rewrite div_up_step by (unfold COPY_BUFFER in *; lia).
    assert (1 <= (size - copied + (COPY_BUFFER - 1)) / COPY_BUFFER); [|lia]. apply N.div_le_lower_bound; unfold COPY_BUFFER in *; lia.
Qed.

Lemma rw_fuel size : chunks_left size 0 <= N.of_nat (S (N.to_nat (size / COPY_BUFFER))).
Proof.
  unfold chunks_left. rewrite N.sub_0_r. rewrite Nat2N.inj_succ, N2Nat.id. enough ((size + (COPY_BUFFER - 1)) / COPY_BUFFER <= size / COPY_BUFFER + 1) by lia.
  replace (size / COPY_BUFFER + 1) with ((size + 1 * COPY_BUFFER) / COPY_BUFFER) by (rewrite N.div_add by discriminate; reflexivity).
  apply N.div_le_mono; unfold COPY_BUFFER; lia.
Qed.

Lemma rw_loop_file src b off_in off_out : supplies src off_in b -> forall fuel copied dest,
  copied <= len b -> chunks_left (len b) copied <= N.of_nat fuel ->
  rw_copy_loop fuel src file_wdev off_in off_out (len b) copied (file_write dest off_out (slice b 0 copied))
  = (file_write dest off_out b, Ok (len b)).
Proof.
  intros HS. induction fuel as [|fuel IH]; intros copied dest Hc Hf; cbn [rw_copy_loop]; (destruct (N.ltb_spec copied (len b)) as [Hlt|Hge];
    [|replace copied with (len b) by lia; rewrite N.eqb_refl; cbn; rewrite slice_full; reflexivity]).
  { pose proof (left_step _ _ Hlt). lia. }
  pose proof (left_step _ _ Hlt) as Hstep. set (n := N.min COPY_BUFFER (len b - copied)) in *. assert (Hn : 0 < n) by (unfold n, COPY_BUFFER; lia).
  rewrite (HS copied n) by (unfold n; lia). cbn [map_err file_wdev dev_write].
  replace (off_out + copied) with (off_out + len (slice b 0 copied)) by (rewrite slice_len; lia).
  rewrite write_write. pose proof (slice_join b 0 copied n) as J. rewrite N.add_0_l in J. rewrite J. apply IH; [unfold n; lia|lia].
Qed.

Lemma c34_file_lemma src b off_in off_out dest : supplies src off_in b ->
  exists dest', rw_copy src file_wdev off_in off_out (len b) dest = (dest', Ok (len b)) /\ stored_at dest dest' off_out b
    /\ len dest' = if len b =? 0 then len dest else N.max (len dest) (off_out + len b).
Proof.
  intros HS. exists (file_write dest off_out b). split; [|split; [intros i; apply write_get|apply write_len]].
  exact (rw_loop_file src b off_in off_out HS _ 0 dest (N.le_0_l _) (rw_fuel _)).
Qed.

Lemma rw_loop_mem src b off_in off_out : supplies src off_in b -> forall fuel copied dest,
  off_out + len b <= len dest -> copied <= len b -> chunks_left (len b) copied <= N.of_nat fuel ->
  rw_copy_loop fuel src mem_wdev off_in off_out (len b) copied (file_write dest off_out (slice b 0 copied))
  = (file_write dest off_out b, Ok (len b)).
Proof.
  intros HS. induction fuel as [|fuel IH]; intros copied dest Hd Hc Hf; cbn [rw_copy_loop]; (destruct (N.ltb_spec copied (len b)) as [Hlt|Hge];
    [|replace copied with (len b) by lia; rewrite N.eqb_refl; cbn; rewrite slice_full; reflexivity]).
  { pose proof (left_step _ _ Hlt). lia. }
  pose proof (left_step _ _ Hlt) as Hstep. set (n := N.min COPY_BUFFER (len b - copied)) in *. assert (Hn : 0 < n) by (unfold n, COPY_BUFFER; lia).
  rewrite (HS copied n) by (unfold n; lia). cbn [map_err mem_wdev dev_write]. unfold mem_write.
  assert (Hl : len (file_write dest off_out (slice b 0 copied)) = len dest).
  { rewrite write_len, slice_len. destruct (N.eqb_spec (N.min copied (len b - 0)) 0); lia. }
  rewrite Hl. rewrite slice_len. replace (N.min n (len b - copied)) with n by (unfold n; lia).
  destruct (N.leb_spec (len dest) (off_out + copied)); [lia|]. cbn [orb]. destruct (N.ltb_spec (len dest - (off_out + copied)) n); [unfold n in *; lia|].
  rewrite put_write by (rewrite Hl, slice_len; unfold n; lia).
  replace (off_out + copied) with (off_out + len (slice b 0 copied)) by (rewrite slice_len; lia).
  rewrite write_write. pose proof (slice_join b 0 copied n) as J. rewrite N.add_0_l in J. rewrite J. apply IH; [auto|unfold n; lia|lia].
Qed.

Lemma c34_mem_lemma src b off_in off_out dest : supplies src off_in b -> off_out + len b <= len dest ->
  exists dest', rw_copy src mem_wdev off_in off_out (len b) dest = (dest', Ok (len b)) /\ stored_at dest dest' off_out b /\ len dest' = len dest.
Proof.
  intros HS Hd. exists (file_write dest off_out b). split; [|split; [intros i; apply write_get|]].
  - exact (rw_loop_mem src b off_in off_out HS _ 0 dest Hd (N.le_0_l _) (rw_fuel _)).
  - rewrite write_len. destruct (N.eqb_spec (len b) 0); lia.
Qed.

(** Whatever happens: only the range changes, success means that everything was
    copied, and the loop ends. *)
Lemma untouched_refl d off n : untouched d d off n.
Proof. intros i _. reflexivity. Qed.
Lemma rw_loop_any src off_in off_out size : lawful src -> forall fuel copied dest dest' r,
  copied <= size -> chunks_left size copied <= N.of_nat fuel ->
  rw_copy_loop fuel src file_wdev off_in off_out size copied dest = (dest', r) ->
  untouched dest dest' off_out size /\ (forall n, r = Ok n -> n = size) /\ (calm src -> (exists n, r = Ok n) \/ (exists e, r = Err (BlockDevReadErr e))).
Proof.
  intros HL. induction fuel as [|fuel IH]; intros copied dest dest' r Hc Hf; cbn [rw_copy_loop]; (destruct (N.ltb_spec copied size) as [Hlt|Hge];
    [|replace copied with size by lia; rewrite N.eqb_refl; intros [= <- <-]; split; [apply untouched_refl|split; [intros n [= <-]; reflexivity|intros _; left; eexists; reflexivity]]]).
  { pose proof (left_step _ _ Hlt). lia. }
  pose proof (left_step _ _ Hlt) as Hstep. set (n := N.min COPY_BUFFER (size - copied)) in *.
  destruct (src (off_in + copied) n) as [b|e|q|] eqn:E; cbn [map_err].
  - cbn [file_wdev dev_write map_err]. intros Hr. apply IH in Hr; [|unfold n; lia|lia]. destruct Hr as (H1 & H2). split; [|exact H2].
    intros i Hi. rewrite H1 by auto. change byte_at with get. rewrite write_get. apply HL in E.
    destruct (N.leb_spec (off_out + copied) i), (N.ltb_spec i (off_out + copied + len b)); cbn [andb]; auto. unfold n in *. lia.
  - intros [= <- <-]. split; [apply untouched_refl|]. split; [discriminate|]. intros _. right. eauto.
  - intros [= <- <-]. split; [apply untouched_refl|]. split; [discriminate|]. intros Hcalm. destruct (Hcalm (off_in + copied) n) as [(x & X)|(x & X)]; congruence.
  - intros [= <- <-]. split; [apply untouched_refl|]. split; [discriminate|]. intros Hcalm. destruct (Hcalm (off_in + copied) n) as [(x & X)|(x & X)]; congruence.
Qed.

Lemma c34_any_lemma src off_in off_out size dest dest' r : lawful src ->
  rw_copy src file_wdev off_in off_out size dest = (dest', r) ->
  untouched dest dest' off_out size /\ (forall n, r = Ok n -> n = size) /\ (calm src -> (exists n, r = Ok n) \/ (exists e, r = Err (BlockDevReadErr e))).
Proof. intros HL H. eapply rw_loop_any; [exact HL|apply N.le_0_l|apply rw_fuel|exact H]. Qed.

(** ** Packing again, step by step *)
Lemma packs_steps m t img : source t -> packs m t img -> exists pls rs, laid m t pls rs /\ img = final t pls rs
  /\ forall D (W : wdev D) (fs : fsys D) fuel d evs, presents fs t -> (length (dirs [] t) < fuel)%nat ->
    create_xdvdfs_image fuel m W fs (d, evs) = (do _ <- exec W fs (all_steps t pls rs); finish W None) (d, evs).
Proof.
  intros (Ht & HP & Hs) (fs & fuel & evs & evs' & Hp & Hc & Hrun).
  pose proof (create_more m file_wdev fs fuel (fuel + S (length (dirs [] t))) _ _ _ Hrun ltac:(discriminate) ltac:(lia)) as Hrun'.
  destruct (pack_run m t HP Hs Ht) as (steps & o & Ho & H). rewrite (H _ file_wdev fs _ [] evs Hp) in Hrun' by lia.
  destruct Ho as [pls rs HL|steps e Hre Hok Hh].
  - exists pls, rs. split; [exact HL|]. split; [|exact H]. unfold pbind at 1 in Hrun'.
    rewrite (exec_file fs t) in Hrun' by (auto; eapply steps_copies; eauto). rewrite steps_writes in Hrun'. fold (body t pls rs) in Hrun'.
    cbn [finish] in Hrun'. unfold pbind at 1 in Hrun'. rewrite pad_file in Hrun'. unfold report in Hrun'. injection Hrun' as <- _. reflexivity.
  - unfold pbind at 1 in Hrun'. rewrite (exec_file fs t) in Hrun' by auto. cbn [finish plift] in Hrun'. discriminate.
Qed.

(** ** C57 *)
Definition step_full (s : step) : Prop := match s with SWrite _ b => b <> [] | _ => True end.

Lemma table_nonempty m t pls rs pl : laid m t pls rs -> In pl pls -> entry_table (pl_table pl) <> [].
Proof.
  intros HL Hpl. pose proof (ld_ok _ _ _ _ HL) as HF. rewrite Forall_forall in HF. destruct (HF _ Hpl) as [Hat (xs & D & sz & F1 & F2 & F3 & F4 & F5 & F6 & F7 & F8 & _)].
  intros E. rewrite E, (@len_nil byte) in F8. unfold sectors in F8.
  destruct (N.eqb_spec sz 0); [lia|]. assert (1 <= (sz + 2047) / 2048) by (apply N.div_le_lower_bound; lia). lia.
Qed.

Lemma steps_full m t pls rs : proper t -> laid m t pls rs -> Forall step_full (all_steps t pls rs).
Proof.
  intros HP HL. unfold all_steps. apply Forall_app; split; [apply Forall_map, Forall_forall; intros; exact I|]. apply Forall_app; split; [|repeat constructor; discriminate].
  apply Forall_forall. intros st H. apply in_concat in H as (l & H1 & H2). apply in_map_iff in H1 as (pl & <- & Hpl).
  destruct H2 as [<-|[<-|H2]]; [exact I|eapply table_nonempty; eauto|]. apply plan_listing_copies in H2 as (e & He & [-> |(Hd & ->)]); exact I.
Qed.

Definition fits (n : N) (w : N * list byte) : Prop := snd w = [] \/ fst w + len (snd w) <= n.

Lemma exec_mem (fs : fsys (list byte)) t steps : proper t -> mem_copies fs t -> copies_ok t steps -> Forall step_full steps -> forall buf evs,
  Forall (fits (len buf)) (flat_map (sw t) steps) ->
  exec mem_wdev fs steps (buf, evs) = ((writes (flat_map (sw t) steps) buf, evs ++ flat_map se steps), Ok tt)
  /\ len (writes (flat_map (sw t) steps) buf) = len buf.
Proof.
  intros HP Hc. induction steps as [|s steps IH]; intros Hok Hful buf evs Hfit.
  - cbn. rewrite app_nil_r. auto.
  - inversion Hok as [|? ? Hs Hok']; subst. inversion Hful as [|? ? Hs' Hful']; subst. specialize (IH Hok' Hful'). cbn [exec flat_map] in *.
    apply Forall_app in Hfit as (Hf1 & Hf2). rewrite writes_app, app_assoc.
    destruct s as [e|off b|p off size]; cbn [exec_step sw se] in *.
    + unfold pbind at 1. unfold report. cbn [fst snd]. apply IH. exact Hf2.
    + inversion Hf1 as [|? ? Hw _]; subst. destruct Hw as [Hw|Hw]; cbn [fst snd] in Hw; [congruence|].
      assert (Hb : 0 < len b) by (destruct b; [congruence|rewrite len_cons; lia]).
      unfold pbind at 1. unfold pwrite. cbn [mem_wdev dev_write fst snd]. unfold mem_write.
      destruct (N.leb_spec (len buf) off); [lia|]. cbn [orb]. destruct (N.ltb_spec (len buf - off) (len b)); [lia|]. cbn [map_err].
      rewrite put_write, app_nil_r by exact Hw.
      assert (Hl : len (file_write buf off b) = len buf) by (rewrite write_len; destruct (N.eqb_spec (len b) 0); lia).
      destruct (IH (file_write buf off b) evs) as (H1 & H2); [rewrite Hl; exact Hf2|]. cbn [writes fold_left fst snd]. rewrite H1, H2. auto.
    + destruct Hs as (b & Hb & ->). inversion Hf1 as [|? ? Hw _]; subst. unfold fits in Hw. cbn [fst snd] in Hw. rewrite (file_bytes_at t HP p b Hb) in *.
      destruct (Hc p b buf off Hb Hw) as (buf' & Hcp & Hl & Hst). pose proof (stored_write buf buf' off b Hl ltac:(tauto) Hst) as ->.
      unfold pbind at 1. unfold pbind at 1. unfold pcopy. cbn [fst snd]. rewrite Hcp. cbn [map_err pret]. rewrite app_nil_r.
      destruct (IH (file_write buf off b) evs) as (H1 & H2); [rewrite Hl; exact Hf2|]. cbn [writes fold_left fst snd]. rewrite H1, H2. auto.
Qed.

Lemma final_len t pls rs : len (body t pls rs) <= len (final t pls rs).
Proof. unfold final, pad. rewrite len_app. lia. Qed.

Lemma writes_fit t pls rs n : len (final t pls rs) <= n -> Forall (fits n) (map snd (wl t pls) ++ [(65536, desc_bytes rs)]).
Proof.
  intros Hn. apply Forall_forall. intros w Hw. unfold fits. destruct (snd w) eqn:E; [auto|]. right. rewrite <- E.
  pose proof (final_len t pls rs) as Hl. unfold body in Hl. destruct (writes_len (map snd (wl t pls) ++ [(65536, desc_bytes rs)]) []) as (_ & H & _).
  specialize (H w Hw ltac:(congruence)). lia.
Qed.

Lemma writes_readable m t pls rs buf : source t -> laid m t pls rs ->
  readable (file_dev (writes (map snd (wl t pls) ++ [(65536, desc_bytes rs)]) buf)) t.
Proof.
  intros (Ht & HP & Hs) HL. set (dd := file_dev (writes (map snd (wl t pls) ++ [(65536, desc_bytes rs)]) buf)).
  assert (Hd : dd 65536 2048 = Ok (desc_bytes rs)).
  { unfold dd.
    pose proof (writes_view (map snd (wl t pls) ++ [(65536, desc_bytes rs)]) buf (65536, desc_bytes rs) (wl_apart m t pls rs HP HL)) as H.
    specialize (H ltac:(apply in_or_app; right; left; auto) ltac:(discriminate) 0 2048). cbn [fst snd] in H. rewrite N.add_0_r in H.
    rewrite H by (rewrite desc_len; lia). reflexivity. }
  assert (Hh : holds dd t (mkRegion 33 rs)).
  { refine (image_tree m t pls rs HP HL dd _ t [] 33 rs (at_here _) (or_introl eq_refl)).
    intros q off b Hin Hne. unfold dd.
    pose proof (writes_view (map snd (wl t pls) ++ [(65536, desc_bytes rs)]) buf (off, b) (wl_apart m t pls rs HP HL)) as H.
    apply H; auto. apply in_or_app. left. apply (in_map snd) in Hin. exact Hin. }
  destruct (c25_lemma dd (file_lawful _) (file_calm _)) as (_ & H & _).
  destruct (H _ _ Hd (desc_descriptor rs ltac:(pose proof (ld_rs _ _ _ _ HL); unfold u32_modulus; lia))) as (v & Hv & Er).
  exists v. split; [exact Hv|]. rewrite Er. intros segs path n t' Hn Hpath. destruct (holds_found _ _ _ _ _ Hn _ Hh) as (e & L & E1 & E2 & E3).
  exists e. split; [eapply c31_lemma; eauto; apply file_lawful|]. split; [exact E1|]. split; [exact E2|].
  intros b ->. apply read_held. exact E3.
Qed.

Lemma writes_zero l : forall n, Forall (fits n) l -> len (writes l []) <= n -> writes l (fill n x00) = writes l [] ++ fill (n - len (writes l [])) x00.
Proof.
  intros n Hf Hn. assert (H : forall l a b, (forall i, get a i = get b i) -> forall i, get (writes l a) i = get (writes l b) i).
  { clear. induction l as [|w l IH]; intros a b H; [exact H|]. cbn [writes fold_left]. apply IH. intros i. rewrite !write_get, H. reflexivity. }
  assert (HL : len (writes l (fill n x00)) = n).
  { destruct (writes_len l (fill n x00)) as (H1 & _ & H2). rewrite len_fill in *. destruct H2 as [H2|(w & Hw & Hne & H2)]; [exact H2|].
    rewrite Forall_forall in Hf. destruct (Hf _ Hw) as [X|X]; [congruence|]. lia. }
  apply get_ext.
  - rewrite len_app, len_fill, HL. lia.
  - intros i _. rewrite (H l (fill n x00) []) by (intros j; rewrite get_fill; symmetry; apply get_past; rewrite (@len_nil byte); lia).
    destruct (N.lt_ge_cases i (len (writes l []))); [rewrite get_app_l by auto; reflexivity|]. rewrite get_app_r by auto. rewrite get_fill. apply get_past. auto.
Qed.

Lemma c57_lemma m t img fs buf evs : source t -> packs m t img -> presents fs t -> mem_copies fs t -> len img <= len buf ->
  exists buf' evs',
    returns (fun fuel => create_xdvdfs_image fuel m mem_wdev fs (buf, evs))
      ((buf', evs'), if len buf mod 65536 =? 0 then Ok tt else Err (BlockDeviceError OutOfBounds))
    /\ len buf' = len buf /\ readable (file_dev buf') t
    /\ (buf = fill (len buf) x00 -> buf' = img ++ fill (len buf - len img) x00).
Proof.
  intros HS Hpk Hp Hc Hl. destruct (packs_steps m t img HS Hpk) as (pls & rs & HL & -> & Hrun). pose proof HS as (Ht & HP & Hs).
  destruct (exec_mem fs t (all_steps t pls rs) HP Hc (steps_copies m t pls rs HP HL) (steps_full m t pls rs HP HL) buf evs) as (H1 & H2);
    [rewrite steps_writes; apply writes_fit; exact Hl|].
  rewrite steps_writes, steps_events in *. set (buf' := writes (map snd (wl t pls) ++ [(65536, desc_bytes rs)]) buf) in *.
  exists buf', (evs ++ run_events t pls ++ (if len buf mod 65536 =? 0 then [EFinishedPacking] else [])). split; [|split; [exact H2|split]].
  - exists (S (length (dirs [] t))). intros fuel Hf. rewrite (Hrun _ _ _ _ _ _ Hp) by lia. unfold pbind at 1. rewrite H1. cbn [finish].
    unfold pbind at 1. unfold pad_image, pbind at 1. unfold M_Img.plen. cbn [mem_wdev dev_len fst snd map_err]. rewrite H2. change (32 * 2048) with 65536.
    destruct (N.eqb_spec (len buf mod 65536) 0) as [E|E].
    + rewrite E. cbn [N.ltb N.compare]. unfold pret, report. cbn [fst snd]. rewrite app_assoc. reflexivity.
    + destruct (N.ltb_spec 0 (len buf mod 65536)); [|lia]. unfold pwrite. cbn [mem_wdev dev_write fst snd]. unfold mem_write. rewrite H2.
      destruct (N.leb_spec (len buf) (len buf)); [|lia]. cbn [orb map_err]. rewrite app_nil_r. reflexivity.
  - apply (writes_readable m); auto.
  - intros Hz. unfold buf'. rewrite Hz at 1. pose proof (final_len t pls rs) as Hfl. rewrite writes_zero; [|apply writes_fit; exact Hl|unfold body in Hfl; lia].
    fold (body t pls rs). unfold final, pad in *. rewrite <- app_assoc. f_equal. rewrite len_app, len_fill in *.
    set (q := padding (len (body t pls rs))) in *. clearbody q. apply get_ext.
    + rewrite len_app, !len_fill. lia.
    + intros i _. rewrite get_fill. destruct (N.lt_ge_cases i q).
      * rewrite get_app_l by (rewrite len_fill; auto). symmetry. apply get_fill.
      * rewrite get_app_r by (rewrite len_fill; auto). symmetry. apply get_fill.
Qed.

(** A file system whose copier stores at the requested place. *)
Definition good_mem_fs (t : ftree) : fsys (list byte) :=
  mkFsys _ (std_read_dir t)
    (fun p d i o n => match lookup_tree p t with
       | Some (FFile b) => (put d o (slice b i n), Ok (len (slice b i n))) | _ => (d, Err NOT_FOUND) end).
Lemma good_mem_ok t : proper t -> presents (good_mem_fs t) t /\ mem_copies (good_mem_fs t) t.
Proof.
  intros HP. split.
  - intros p cs H. destruct (std_presents t HP p cs H) as (l & H1 & H2). exists l. auto.
  - intros p b buf off H Hf. apply lookup_at in H; auto. cbn. rewrite H. rewrite slice_full. eexists. split; [reflexivity|].
    destruct Hf as [->|Hf]; [|split; [apply put_len; exact Hf|apply put_stored; exact Hf]].
    assert (E : put buf off [] = buf) by (unfold put; rewrite (@len_nil byte), N.add_0_r; apply firstn_skipn). rewrite E. split; [reflexivity|].
    intros i. rewrite (@len_nil byte), N.add_0_r. destruct (N.leb_spec off i), (N.ltb_spec i off); cbn [andb]; try reflexivity; lia.
Qed.
