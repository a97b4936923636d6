(** Proofs for C163: which requests reading makes. *)
From Verif Require Import M_Base M_Util M_Layout M_Read M_Check M_Img M_Dev M_Live M_Trace.
From Verif Require Import S_Read S_Live.
From Verif Require Import S_Img P_Base P_Trace P_Live.
From Coq Require Import Init.Byte.
Local Open Scope N_scope.

Lemma asked_bind {S A B} (D : ldev S) (x : rd A) (f : A -> rd B) : forall s,
  asked D s (rbind x f) = asked D s x ++ match live D s x with (s', Ok a) => asked D s' (f a) | _ => [] end.
Proof.
  induction x as [r|o n k IH]; intros s; [destruct r; reflexivity|]. simpl. destruct (D s o n) as [s' b]. simpl. rewrite IH. reflexivity.
Qed.
Lemma asked_ask {S} (D : ldev S) s o n : asked D s (ask o n) = [(o, n)].
Proof. unfold ask. simpl. destruct (D s o n). reflexivity. Qed.

(** ** Scanning *)
Definition sectors (base a : N) (n : nat) : list (N * N) := map (fun i => (2048 * (a + N.of_nat i) + base, 2048)) (seq 0 n).
Lemma sectors_app base a m n : sectors base a (m + n) = sectors base a m ++ sectors base (a + N.of_nat m) n.
Proof.
  unfold sectors. rewrite seq_app, map_app. f_equal. rewrite <- (map_id (seq (0 + m) n)) at 1. simpl (0 + m)%nat.
  rewrite map_id. revert m. induction n as [|n IH]; intros m; [reflexivity|]. simpl. f_equal; [f_equal; lia|].
  rewrite IH. rewrite <- seq_shift, map_map. apply map_ext. intros i. f_equal. lia.
Qed.
Lemma sectors_one base a : sectors base a 1 = [(a * 2048 + base, 2048)].
Proof. unfold sectors. simpl. f_equal. f_equal. lia. Qed.

Section Scan.
Context {S : Type} (D : ldev S) (base : N).
(** From sector [a] on, [n] sectors were asked for; then the scan is at [s]. *)
Definition at_sector (a stop : N) (n : nat) (s : scan) : Prop :=
  s_end s = stop /\ (s_sector s + 1 = a + N.of_nat n /\ s_sector s < stop \/ s_sector s = stop /\ a + N.of_nat n = stop).
Lemma asked_next_sector st s : s_sector s < s_end s -> exists n, asked D st (l_next_sector base s) = sectors base (s_sector s + 1) n /\ s_sector s + 1 + N.of_nat n <= s_end s
  /\ forall st' s', live D st (l_next_sector base s) = (st', Ok s') -> at_sector (s_sector s + 1) (s_end s) n s' /\ s_sector s' = s_sector s + 1.
Proof.
  intros L. unfold l_next_sector. cbv zeta. destruct (N.leb_spec (s_end s) (s_sector s + 1)) as [G|G].
  - exists 0%nat. split; [reflexivity|]. split; [simpl; lia|]. intros st' s' H. injection H as <- <-. split; [|reflexivity]. split; [reflexivity|]. right. simpl. lia.
  - exists 1%nat. rewrite asked_bind, asked_ask, sectors_one, live_bind. split.
    { change SECTOR_SIZE with 2048. destruct (live D st (ask ((s_sector s + 1) * 2048 + base) 2048)) as [? []]; reflexivity. }
    split; [lia|]. intros st' s' H. destruct (live D st (ask ((s_sector s + 1) * SECTOR_SIZE + base) 2048)) as [? []]; try discriminate H.
    injection H as <- <-. split; [|reflexivity]. split; [reflexivity|]. left. simpl. lia.
Qed.
Lemma asked_next_loop fuel : forall st s, s_sector s < s_end s ->
  exists n, asked D st (l_next_loop fuel base s) = sectors base (s_sector s + 1) n /\ s_sector s + 1 + N.of_nat n <= s_end s
  /\ forall st' o s', live D st (l_next_loop fuel base s) = (st', Ok (o, s')) -> at_sector (s_sector s + 1) (s_end s) n s' /\ (o = None -> s_sector s + 1 + N.of_nat n = s_end s).
Proof.
  induction fuel as [|fuel IH]; intros st s L; [exists 0%nat; split; [reflexivity|]; split; [lia|discriminate]|]. cbn [l_next_loop].
  rewrite asked_bind, live_bind. cbn [live asked]. destruct (rassert (s_offset s + 14 <? SECTOR_SIZE)) as [u| | |]; cbn [after_run app];
    [|exists 0%nat; split; [reflexivity|]; split; [lia|discriminate]..].
  destruct (deserialize_dirent_node _ _) as [e|].
  - cbv zeta. rewrite asked_bind, live_bind. cbn [live asked]. destruct (rassert (_ <=? SECTOR_SIZE)) as [u'| | |]; cbn [after_run app];
      [|exists 0%nat; split; [reflexivity|]; split; [lia|discriminate]..].
    rewrite asked_bind, live_bind. destruct (SECTOR_SIZE <=? _) eqn:G.
    + set (sc := mkScan _ _ _ _). destruct (asked_next_sector st sc L) as (n & E & B & K). exists n. rewrite E. split.
      { destruct (live D st (l_next_sector base sc)) as [? []]; simpl; apply app_nil_r. }
      split; [exact B|]. intros st' o s' H. destruct (live D st (l_next_sector base sc)) as [st1 [s1| | |]] eqn:E1; try discriminate H.
      simpl in H. injection H as <- <- <-. split; [apply (K st1 s1 eq_refl)|discriminate].
    + exists 0%nat. split; [reflexivity|]. split; [lia|]. intros st' o s' H. simpl in H. injection H as <- <- <-. split; [|discriminate].
      split; [reflexivity|]. left. simpl. lia.
  - destruct (N.ltb_spec (s_sector s + 1) (s_end s)) as [G|G].
    + rewrite asked_bind, live_bind. destruct (asked_next_sector st s L) as (n & E & B & K). rewrite E.
      destruct (live D st (l_next_sector base s)) as [st1 [s1| | |]] eqn:E1; cbn [after_run];
        [|exists n; rewrite app_nil_r; split; [reflexivity|]; split; [exact B|discriminate]..].
      destruct (K st1 s1 eq_refl) as [[A1 A2] A3]. assert (N1 : n = 1%nat) by lia. subst n. rewrite <- A1 in G.
      destruct (IH st1 s1) as (n & E' & B' & K'); [rewrite A3; exact G|]. exists (1 + n)%nat. rewrite E', A3. split.
      { rewrite sectors_app. do 2 f_equal. }
      split; [lia|]. intros st' o s' H. destruct (K' st' o s' H) as [[C1 C2] C3]. split; [split; [congruence|lia]|]. intros ->. specialize (C3 eq_refl). lia.
    + exists 0%nat. split; [reflexivity|]. split; [lia|]. intros st' o s' H. simpl in H. injection H as <- <- <-. split; [|lia]. split; [reflexivity|]. left. lia.
Qed.
Lemma asked_collect fuel : forall st s, s_sector s < s_end s \/ s_sector s = s_end s ->
  exists n, asked D st (l_collect fuel base s) = sectors base (s_sector s + 1) n /\ (s_sector s < s_end s -> s_sector s + 1 + N.of_nat n <= s_end s)
  /\ (s_sector s = s_end s -> n = 0%nat)
  /\ forall st' es, live D st (l_collect fuel base s) = (st', Ok es) -> s_sector s < s_end s -> s_sector s + 1 + N.of_nat n = s_end s.
Proof.
  induction fuel as [|fuel IH]; intros st s L; [exists 0%nat; split; [reflexivity|]; split; [lia|]; split; [reflexivity|discriminate]|]. cbn [l_collect].
  unfold l_next. destruct (N.leb_spec (s_end s) (s_sector s)) as [G|G]; [exists 0%nat; split; [reflexivity|]; split; [lia|]; split; [reflexivity|lia]|].
  rewrite asked_bind, live_bind. destruct (asked_next_loop (Datatypes.S fuel) st s G) as (n & E & B & K). rewrite E.
  destruct (live D st (l_next_loop (Datatypes.S fuel) base s)) as [st1 [[[e|] s1]| | |]] eqn:E1; cbn [after_run];
    [| |exists n; rewrite app_nil_r; split; [reflexivity|]; split; [lia|]; split; [lia|discriminate]..].
  - destruct (K st1 (Some e) s1 eq_refl) as [[A1 A2] _]. rewrite asked_bind, live_bind. destruct (IH st1 s1) as (n' & E' & B' & Z' & K'); [lia|]. rewrite E'.
    assert (X : sectors base (s_sector s + 1) n ++ (sectors base (s_sector s1 + 1) n' ++ []) = sectors base (s_sector s + 1) (n + n')).
    { rewrite app_nil_r, sectors_app. f_equal. destruct A2 as [[A2 _]|[A2 A3]]; [rewrite A2; reflexivity|]. rewrite Z' by lia. reflexivity. }
    exists (n + n')%nat. split; [|split; [|split; [lia|]]].
    + destruct (live D st1 (l_collect fuel base s1)) as [? []]; exact X.
    + destruct A2 as [[A2 A3]|[A2 A3]]; [|rewrite Z' by lia]; lia.
    + intros st' es H _. destruct (live D st1 (l_collect fuel base s1)) as [st2 [es2| | |]] eqn:E2; try discriminate H.
      destruct A2 as [[A2 A3]|[A2 A3]]; [specialize (K' st2 es2 eq_refl)|rewrite Z' by lia]; lia.
  - destruct (K st1 None s1 eq_refl) as [[A1 A2] A3]. specialize (A3 eq_refl). exists n. split; [apply app_nil_r|]. split; [lia|]. split; [lia|]. intros. exact A3.
Qed.
Lemma c163_scan_lemma fuel r st : r_size r <> 0 -> exists n, asked D st (l_scan fuel base r) = sectors base (r_sector r) n
  /\ N.of_nat n <= (r_size r + 2047) / 2048 /\ forall es, snd (live D st (l_scan fuel base r)) = Ok es -> N.of_nat n = (r_size r + 2047) / 2048.
Proof.
  intros Z. assert (P : 1 <= (r_size r + 2047) / 2048) by (apply N.div_le_lower_bound; lia).
  unfold l_scan, l_scan_start. unfold region_is_empty. destruct (r_size r =? 0) eqn:E0; [lia|].
  rewrite asked_bind, live_bind, asked_bind, live_bind. cbn [live asked]. unfold region_offset. destruct (N.leb_spec (r_size r) 0) as [G|G]; [lia|]. cbn [after_run app].
  rewrite asked_bind, asked_ask. change SECTOR_SIZE with 2048. rewrite N.add_0_r. rewrite !live_bind. cbn [live after_run]. rewrite ?live_bind. cbn [live asked].
  assert (O : [(2048 * r_sector r + base, 2048)] = sectors base (r_sector r) 1) by (rewrite sectors_one; do 2 f_equal; lia).
  destruct (live D st (ask (2048 * r_sector r + base) 2048)) as [st1 [b| | |]]; cbn [after_run];
    [|exists 1%nat; rewrite !app_nil_r; split; [exact O|]; split; [exact P|intros es H; cbn in H; discriminate H]..].
  cbn [live asked]. rewrite app_nil_r. set (sc := mkScan _ _ _ _).
  destruct (asked_collect fuel st1 sc) as (n & E & B & _ & K); [left; simpl; lia|]. rewrite E. exists (1 + n)%nat. split.
  { rewrite O, sectors_app. reflexivity. }
  simpl in B. split; [lia|]. intros es H. destruct (live D st1 (l_collect fuel base sc)) as [st2 x] eqn:E2. simpl in H. subst x.
  specialize (K st2 es eq_refl). simpl in K. lia.
Qed.
End Scan.

(** ** Listing *)
Section Walk.
Context {S : Type} (D : ldev S) (base : N).
Lemma asked_dirent st o : (length (asked D st (l_dirent base o)) <= 2)%nat
  /\ forall st', live D st (l_dirent base o) = (st', Ok None) -> length (asked D st (l_dirent base o)) = 1%nat.
Proof.
  unfold l_dirent. rewrite asked_bind, live_bind, asked_ask. destruct (live D st (ask (o + base) 14)) as [st1 [b| | |]]; cbn [after_run]; [|simpl; split; [lia|reflexivity]..].
  destruct (deserialize_dirent_node b o) as [e|]; [|simpl; split; [lia|reflexivity]]. rewrite asked_bind, live_bind, asked_ask.
  destruct (live D st1 _) as [st2 [b2| | |]]; simpl; split; try lia; intros; discriminate.
Qed.
Lemma asked_walk_loop fuel r : forall s stack acc s' es, live D s (l_walk_loop fuel base r stack acc) = (s', Ok es) ->
  (length (asked D s (l_walk_loop fuel base r stack acc)) + 3 * length acc <= 3 * length es + length stack)%nat.
Proof.
  induction fuel as [|fuel IH]; intros s stack acc s' es; (destruct stack as [|top stack]; [intros H; injection H as <- <-; simpl; lia|]); [discriminate|].
  cbn [l_walk_loop]. rewrite asked_bind, live_bind. cbn [live asked]. destruct (region_offset r top) as [o| | |]; cbn [after_run app]; try discriminate.
  rewrite asked_bind, live_bind. destruct (asked_dirent s o) as [A1 A2]. destruct (live D s (l_dirent base o)) as [s1 [[e|]| | |]]; cbn [after_run]; try discriminate.
  - cbv zeta. intros H. specialize (IH _ _ _ _ _ H). rewrite app_length in *. simpl length in *. revert IH.
    destruct (_ && _); destruct (_ && _); simpl length; lia.
  - intros H. specialize (IH _ _ _ _ _ H). rewrite app_length. rewrite (A2 s1 eq_refl). simpl length. lia.
Qed.
Lemma c163_walk_lemma fuel r s es : snd (live D s (l_walk fuel base r)) = Ok es -> (length (asked D s (l_walk fuel base r)) <= 3 * length es + 1)%nat.
Proof.
  unfold l_walk. destruct (region_is_empty r); [simpl; lia|]. destruct (live D s (l_walk_loop fuel base r [0] [])) as [s' x] eqn:E. simpl. intros ->.
  pose proof (asked_walk_loop _ _ _ _ _ _ _ E). simpl in H. lia.
Qed.
Lemma c163_data_lemma s x : asked D s (l_data base x) = if r_size (d_region x) =? 0 then [] else [(2048 * r_sector (d_region x) + base, r_size (d_region x))].
Proof.
  unfold l_data. cbv zeta. destruct (N.eqb_spec (r_size (d_region x)) 0) as [E|E]; [reflexivity|]. unfold region_offset. destruct (N.leb_spec (r_size (d_region x)) 0); [lia|].
  cbn [rbind]. rewrite asked_ask. change SECTOR_SIZE with 2048. rewrite N.add_0_r. reflexivity.
Qed.
Lemma c163_data_at_lemma s x n o : asked D s (l_data_at base x n o) = if r_size (d_region x) <=? o then [] else [(2048 * r_sector (d_region x) + o + base, N.min n (r_size (d_region x)))].
Proof.
  unfold l_data_at. cbv zeta. destruct (N.eqb_spec (r_size (d_region x)) 0) as [E|E]; [rewrite E, (proj2 (N.leb_le 0 o) (N.le_0_l o)); reflexivity|]. unfold region_offset. destruct (N.leb_spec (r_size (d_region x)) o); [reflexivity|].
  cbn [rbind]. rewrite asked_ask. change SECTOR_SIZE with 2048. reflexivity.
Qed.
Lemma asked_try {A B} (x : rd A) (f : A -> rd B) g : forall s,
  asked D s (rtry x f g) = asked D s x ++ match live D s x with (s', Ok a) => asked D s' (f a) | (s', Err _) => asked D s' g | _ => [] end.
Proof.
  induction x as [r|o n k IH]; intros s; [destruct r; reflexivity|]. simpl. destruct (D s o n) as [s' b]. simpl. rewrite IH. reflexivity.
Qed.
Lemma live_try {A B} (x : rd A) (f : A -> rd B) g : forall s,
  live D s (rtry x f g) = match live D s x with (s', Ok a) => live D s' (f a) | (s', Err _) => live D s' g | (s', Panic p) => (s', Panic p) | (s', OutOfFuel) => (s', OutOfFuel) end.
Proof.
  induction x as [r|o n k IH]; intros s; [destruct r; reflexivity|]. simpl. destruct (D s o n) as [s' b]. apply IH.
Qed.
Lemma c163_probe_lemma os : forall s, exists k, asked D s (l_probe os) = map (fun o => (65536 + o, 2048)) (firstn k os)
  /\ forall o, snd (live D s (l_probe os)) = Ok o -> exists l, firstn k os = l ++ [o].
Proof.
  induction os as [|o os IH]; intros s; [exists 0%nat; split; [reflexivity|discriminate]|]. cbn [l_probe]. rewrite asked_try, live_try.
  assert (V : asked D s (l_volume o) = [(65536 + o, 2048)]). { unfold l_volume. cbn [asked]. destruct (D s _ _). reflexivity. } rewrite V.
  destruct (live D s (l_volume o)) as [s1 [v|e|p|]].
  - exists 1%nat. split; [reflexivity|]. simpl. intros o' H. injection H as <-. exists []. reflexivity.
  - destruct (IH s1) as (k & E & K). exists (Datatypes.S k). rewrite E. split; [reflexivity|]. intros o' H. destruct (K o' H) as [l L]. exists (o :: l). simpl. rewrite L. reflexivity.
  - exists 1%nat. split; [reflexivity|discriminate].
  - exists 1%nat. split; [reflexivity|discriminate].
Qed.
End Walk.

(** ** Lookups *)
Section Find.
Variables (d d' : dev) (base : N).
Hypothesis SAME : forall o n, d' o n = d (o + base) n.
Notation asks x := (asked (still d) tt x).
Lemma live_still {A} (x : rd A) : live (still d) tt x = (tt, on d x).
Proof. unfold on. destruct (live (still d) tt x) as [[] r]. reflexivity. Qed.
Lemma on_dirent o : on d (l_dirent base o) = read_dirent d' o.
Proof.
  rewrite same_dirent. unfold read_dirent, offset_dev. rewrite SAME. destruct (d (o + base) 14) as [b| | |]; [|reflexivity..]. simpl.
  destruct (deserialize_dirent_node b o) as [e|]; [|reflexivity]. rewrite SAME. reflexivity.
Qed.
Lemma find_asks fuel r name : forall o, on d (l_find_loop fuel base r name o) = snd (find_trace fuel d' r name o)
  /\ (length (asks (l_find_loop fuel base r name o)) <= 2 * length (fst (find_trace fuel d' r name o)))%nat.
Proof.
  induction fuel as [|fuel IH]; intros o; [split; [reflexivity|simpl; lia]|]. cbn [l_find_loop find_trace]. rewrite on_bind, asked_bind, live_still, on_dirent.
  destruct (asked_dirent (still d) base tt o) as [A _]. set (q := asks (l_dirent base o)) in *. clearbody q.
  assert (NX : forall p, let l := if p =? 0 then Done (Err DoesNotExist) else rbind (Done (region_offset r (4 * p))) (fun offset => l_find_loop fuel base r name offset) in
     let t := if p =? 0 then ([], Err DoesNotExist) else match region_offset r (4 * p) with Ok offset => find_trace fuel d' r name offset | Err e => ([], Err e) | Panic p => ([], Panic p) | OutOfFuel => ([], OutOfFuel) end in
     on d l = snd t /\ (length (asks l) <= 2 * length (fst t))%nat).
  { intros p. cbv zeta. destruct (p =? 0); [split; [reflexivity|simpl; lia]|]. destruct (region_offset r (4 * p)); cbn [rbind]; try (split; [reflexivity|simpl; lia]). apply IH. }
  destruct (read_dirent d' o) as [[e|]| | |]; cbn [bind].
  - rewrite on_bind, on_done, asked_bind. cbn [ok_or bind live asked app]. cbv zeta.
    destruct (cmp_ignore_case_utf8 name (name_str e)).
    + rewrite app_length. simpl. split; [reflexivity|lia].
    + destruct (NX (d_left (e_node e))) as [N1 N2]. cbv zeta in N1, N2.
      match type of N1 with _ = snd ?t => destruct t as [l x] end. cbn [snd fst length] in *. rewrite app_length. split; [exact N1|lia].
    + destruct (NX (d_right (e_node e))) as [N1 N2]. cbv zeta in N1, N2.
      match type of N1 with _ = snd ?t => destruct t as [l x] end. cbn [snd fst length] in *. rewrite app_length. split; [exact N1|lia].
  - rewrite on_bind, on_done, asked_bind. simpl. rewrite app_length. simpl. split; [reflexivity|lia].
  - rewrite app_length. simpl. split; [reflexivity|lia].
  - rewrite app_length. simpl. split; [reflexivity|lia].
  - rewrite app_length. simpl. split; [reflexivity|lia].
Qed.
Lemma find_dirent_asks fuel r name : on d (l_find fuel base r name) = snd (find_dirent_trace fuel d' r name)
  /\ (length (asks (l_find fuel base r name)) <= 2 * length (fst (find_dirent_trace fuel d' r name)))%nat.
Proof.
  unfold l_find, find_dirent_trace. destruct (region_is_empty r); [split; [reflexivity|simpl; lia]|].
  destruct (region_offset r 0); cbn [rbind]; [apply find_asks|split; [reflexivity|simpl; lia]..].
Qed.
Lemma segments_asks fuel segs : forall r, on d (l_segments fuel base r segs) = snd (segments_trace fuel d' r segs)
  /\ (length (asks (l_segments fuel base r segs)) <= 2 * length (fst (segments_trace fuel d' r segs)))%nat.
Proof.
  induction segs as [|s segs IH]; intros r; [split; [reflexivity|simpl; lia]|]. cbn [l_segments segments_trace]. rewrite on_bind, asked_bind, live_still.
  destruct (find_dirent_asks fuel r s) as [E A]. rewrite E. set (q := asks (l_find fuel base r s)) in *. clearbody q. destruct (find_dirent_trace fuel d' r s) as [l [e| | |]]; cbn [snd fst bind] in *;
    [|split; [reflexivity|rewrite app_length; simpl; lia]..].
  destruct segs as [|s' segs]; [split; [reflexivity|rewrite app_length; simpl; lia]|].
  destruct (dirent_table (d_dirent (e_node e))) as [t|]; cbn [ok_or rbind]; [|split; [reflexivity|rewrite app_length; simpl; lia]].
  destruct (IH t) as [E' A']. destruct (segments_trace fuel d' t (s' :: segs)) as [l' x]. cbn [snd fst] in *. rewrite !app_length. split; [exact E'|lia].
Qed.
Lemma path_asks fuel r path : (length (asks (l_path fuel base r path)) <= 2 * length (fst (walk_trace fuel d' r path)))%nat.
Proof. unfold l_path, walk_trace. destruct path; [simpl; lia|]. destruct str_eqb; [simpl; lia|]. apply segments_asks. Qed.
End Find.
Lemma c163_scan_spec {S} (D : ldev S) base fuel r s : r_size r <> 0 -> exists n, n <= (r_size r + 2047) / 2048
  /\ asked D s (l_scan fuel base r) = each_sector base (r_sector r) n
  /\ forall es, snd (live D s (l_scan fuel base r)) = Ok es -> n = (r_size r + 2047) / 2048.
Proof.
  intros Z. destruct (c163_scan_lemma D base fuel r s Z) as (n & E & B & K). exists (N.of_nat n). split; [exact B|]. split; [|exact K].
  unfold each_sector. rewrite Nnat.Nat2N.id. exact E.
Qed.
Lemma c163_lookup_lemma m t img v segs path fuel : source t -> packs m t img -> read_volume (file_dev img) = Ok v -> path_of segs path ->
  (length (asked (still (file_dev img)) tt (l_path fuel 0 (v_root v) path)) <= 38 * length segs)%nat.
Proof.
  intros HT HP HV HS. pose proof (c144_any_lemma m t img v segs path fuel HT HP HV HS) as A.
  pose proof (path_asks (file_dev img) (file_dev img) 0 (fun o n => f_equal (fun x => file_dev img x n) (eq_sym (N.add_0_r o))) fuel (v_root v) path) as B. lia.
Qed.
