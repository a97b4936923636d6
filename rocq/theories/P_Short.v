(** Proofs of C172. *)
From Verif Require Import M_Base M_Util M_Layout M_Read M_Img M_Dev M_Lin M_Short.
From Verif Require Import S_Read S_Img S_Lin S_Generic S_Short.
From Verif Require Import P_Base P_Bytes P_Dev P_Run P_Lin P_Compress P_Generic.
From Coq Require Import Init.Byte Lia.
Local Open Scope N_scope.

Lemma slice_self {A} (l : list A) o n : slice l o n = slice l o (len (slice l o n)).
Proof.
  unfold len. unfold slice at 1 2. rewrite Nnat.Nat2N.id. unfold slice. rewrite firstn_length.
  destruct (Nat.le_gt_cases (N.to_nat n) (length (skipn (N.to_nat o) l))) as [H|H]; [rewrite Nat.min_l by exact H; reflexivity|].
  rewrite Nat.min_r by lia. rewrite !firstn_all2; auto; lia.
Qed.
Lemma slice_slice {A} (l : list A) o n k : slice (slice l o n) 0 k = slice l o (N.min k n).
Proof. unfold slice. change (N.to_nat 0) with O. rewrite skipn_O, firstn_firstn. f_equal. lia. Qed.
Lemma slice_step (file : list byte) pos left c : c <= left -> let b := slice file pos c in
  slice file pos left = b ++ slice file (pos + len b) (left - len b).
Proof.
  intros H b. assert (L : len b <= c) by (unfold b; rewrite slice_len; lia).
  replace left with (len b + (left - len b)) at 1 by lia. rewrite <- slice_join. f_equal. unfold b. symmetry. apply slice_self.
Qed.
Lemma nil_end (file : list byte) pos c left : 0 < c -> slice file pos c = [] -> slice file pos left = [].
Proof.
  intros H E. pose proof (slice_len file pos c) as L. rewrite E in L. change (len []) with 0 in L. pose proof (slice_len file pos left) as L2.
  destruct (slice file pos left) as [|x l]; [reflexivity|]. assert (0 < len (x :: l)) by (unfold len; cbn [length]; lia). lia.
Qed.

Lemma io_copy_spec S file fuel : forall k pos left out, (length (slice file pos left) < fuel)%nat ->
  exists k' out' r, io_copy fuel S file k pos left out = (k', out', r)
  /\ (r = Ok (len out') /\ out' = out ++ slice file pos left \/ exists j e, S j = Fails e /\ r = Err e).
Proof.
  induction fuel as [|fuel IH]; intros k pos left out H; [lia|]. cbn [io_copy]. destruct (N.eqb_spec left 0) as [->|Hl].
  - eexists _, _, _. split; [reflexivity|]. left. split; [reflexivity|]. cbn. rewrite app_nil_r. reflexivity.
  - destruct (S k) as [mx|e] eqn:ES; cbn [sys_read]; [|eexists _, _, _; split; [reflexivity|right; eauto]].
    set (c := N.min (N.min BUFFER left) (N.max 1 mx)). assert (Hc : 0 < c <= left) by (unfold c, BUFFER; lia).
    pose proof (slice_step file pos left c (proj2 Hc)) as St. cbv zeta in St. pose proof (nil_end file pos c left (proj1 Hc)) as Hn.
    destruct (slice file pos c) as [|x b] eqn:Eb.
    + rewrite (Hn eq_refl), app_nil_r. eexists _, _, _. split; [reflexivity|]. left. auto.
    + edestruct (IH (k + 1) (pos + len (x :: b)) (left - len (x :: b)) (out ++ x :: b)) as (k' & out' & r & E & D).
      * rewrite St, app_length in H. cbn [length] in H. lia.
      * rewrite E. eexists _, _, _. split; [reflexivity|]. destruct D as [[-> ->]|D]; [left|right; exact D]. split; [reflexivity|]. rewrite St, <- app_assoc. reflexivity.
Qed.
Lemma slice_bound {A} (l : list A) o n : (length (slice l o n) <= length l)%nat.
Proof. unfold slice. rewrite firstn_length, skipn_length. lia. Qed.
Lemma c172_failure_lemma S t p s input output size s' r : short_copy_file S t p s input output size = (s', r) ->
  (fst s', r) = std_copy_file t p (fst s) input output size \/ exists k e, S k = Fails e /\ r = Err e.
Proof.
  unfold short_copy_file, std_copy_file. destruct (lookup_tree p t) as [[b|cs]|]; intros H; try (injection H as <- <-; left; reflexivity).
  destruct (io_copy_spec S b (Datatypes.S (length b)) (snd s) input size []) as (k' & out' & q & E & D); [pose proof (slice_bound b input size); lia|].
  rewrite E in H. injection H as <- <-. cbn [fst]. destruct D as [[-> ->]|D]; [left; reflexivity|right; exact D].
Qed.
Lemma c172_pack_lemma S t fuel m b k evs s' evs' r : never_fails S ->
  create_xdvdfs_image fuel m short_wdev (short_fs S t) ((b, k), evs) = ((s', evs'), r) ->
  create_xdvdfs_image fuel m file_wdev (std_fs t) (b, evs) = ((fst s', evs'), r).
Proof.
  intros NF H. change b with (fst (b, k)). apply (c170_file_lemma counted fst short_wdev (short_fs S t) t fuel m (b, k) evs s' evs' r); [|exact H].
  repeat split; auto.
  all: destruct (short_copy_file S t p s 0 out size) as [s1 r1] eqn:E; cbn [short_fs copy_in]; rewrite E; destruct (c172_failure_lemma _ _ _ _ _ _ _ _ _ E) as [X|(j & e & X & _)]; [|destruct (NF j e X)]; rewrite <- X; reflexivity.
Qed.

Lemma read_exact_spec S file : never_fails S -> forall fuel k pos left got, (N.to_nat left < fuel)%nat ->
  read_exact fuel S file k pos left got = if left =? 0 then Ok got else if pos + left <=? len file then Ok (got ++ slice file pos left) else Err UnexpectedEof.
Proof.
  intros NF. induction fuel as [|fuel IH]; intros k pos left got H; [lia|]. cbn [read_exact]. destruct (N.eqb_spec left 0) as [->|Hl]; [reflexivity|].
  destruct (S k) as [mx|e] eqn:ES; [|destruct (NF k e ES)]. cbn [sys_read].
  set (c := N.min left (N.max 1 mx)). assert (Hc : 0 < c <= left) by (unfold c; lia).
  pose proof (slice_step file pos left c (proj2 Hc)) as St. cbv zeta in St. pose proof (slice_len file pos c) as L.
  destruct (slice file pos c) as [|x b] eqn:Eb.
  - change (len []) with 0 in L. destruct (N.leb_spec (pos + left) (len file)); [lia|reflexivity].
  - assert (L1 : 0 < len (x :: b)) by (unfold len; cbn [length]; lia).
    rewrite IH by lia. rewrite St, app_assoc.
    destruct (N.eqb_spec (left - len (x :: b)) 0) as [E0|E0].
    + destruct (N.leb_spec (pos + left) (len file)); [|lia]. rewrite E0. cbn. rewrite app_nil_r. reflexivity.
    + replace (pos + len (x :: b) + (left - len (x :: b))) with (pos + left) by lia. reflexivity.
Qed.
Lemma c172_read_lemma S file : (forall o n, never_fails (S o n)) -> forall o n, short_dev S file o n = file_dev file o n.
Proof. intros NF o n. unfold short_dev, file_dev. rewrite read_exact_spec by (auto; lia). reflexivity. Qed.

Lemma read_exact_fails S file : forall fuel k pos left got, (N.to_nat left < fuel)%nat ->
  read_exact fuel S file k pos left got = (if left =? 0 then Ok got else if pos + left <=? len file then Ok (got ++ slice file pos left) else Err UnexpectedEof)
  \/ exists j e, S j = Fails e /\ read_exact fuel S file k pos left got = Err e.
Proof.
  induction fuel as [|fuel IH]; intros k pos left got H; [lia|]. cbn [read_exact]. destruct (N.eqb_spec left 0) as [->|Hl]; [left; reflexivity|].
  destruct (S k) as [mx|e] eqn:ES; [|right; exists k, e; auto]. cbn [sys_read].
  set (c := N.min left (N.max 1 mx)). assert (Hc : 0 < c <= left) by (unfold c; lia).
  pose proof (slice_step file pos left c (proj2 Hc)) as St. cbv zeta in St. pose proof (slice_len file pos c) as L.
  destruct (slice file pos c) as [|x b] eqn:Eb.
  - change (len []) with 0 in L. left. destruct (N.leb_spec (pos + left) (len file)); [lia|reflexivity].
  - assert (L1 : 0 < len (x :: b)) by (unfold len; cbn [length]; lia).
    destruct (IH (k + 1) (pos + len (x :: b)) (left - len (x :: b)) (got ++ x :: b) ltac:(lia)) as [->|R]; [left|right; exact R].
    rewrite St, app_assoc. destruct (N.eqb_spec (left - len (x :: b)) 0) as [E0|E0].
    + destruct (N.leb_spec (pos + left) (len file)); [|lia]. rewrite E0. cbn. rewrite app_nil_r. reflexivity.
    + replace (pos + len (x :: b) + (left - len (x :: b))) with (pos + left) by lia. reflexivity.
Qed.
Lemma c172_read_failure_lemma S file o n : short_dev S file o n = file_dev file o n \/ exists k e, S o n k = Fails e /\ short_dev S file o n = Err e.
Proof. unfold short_dev, file_dev. apply read_exact_fails. lia. Qed.

(** ** Compressing *)
Lemma short_slice_full n src dest input output size : size <= n -> short_slice_copy (Gives n) src dest input output size = slice_copy src dest input output size.
Proof.
  intros H. unfold short_slice_copy, slice_copy. destruct (len dest <? output); [reflexivity|]. cbv zeta. set (z := N.min size (len dest - output)).
  destruct (N.eqb_spec z 0) as [->|Hz].
  - change (slice [] 0 0) with (@nil byte). change (slice src input 0) with (@nil byte). reflexivity.
  - cbn [sys_read]. rewrite slice_slice. replace (N.min z (N.min (N.max BUFFER z) (N.max 1 n))) with z by (unfold z in *; lia). reflexivity.
Qed.
Lemma c172_compress_lemma m t img evs : source t -> packs m t img ->
  exists s evs', returns (fun fuel => compress_layout fuel m (std_mem_fs t) ([], evs)) ((s, evs'), Ok tt) /\ lin_len s = len img
  /\ forall k a, match a with
                 | Gives n => 2048 <= n -> exists b, read_sector (short_mem_fs a t) s k = Ok b /\ is_sector img k b
                 | Fails e => read_sector (short_mem_fs a t) s k = Err e \/ exists b, read_sector (short_mem_fs a t) s k = Ok b /\ is_sector img k b
                 end.
Proof.
  intros HS Hpk. pose proof (proj1 (proj2 HS)) as HP.
  destruct (c37_lemma m t img (std_mem_fs t) evs HS Hpk (std_presents t HP : presents (std_mem_fs t) t) (std_sector_copies t HP)) as (s & evs' & R & L & A).
  exists s, evs'. split; [exact R|]. split; [exact L|]. intros k a.
  assert (F : forall n, 2048 <= n -> exists b, read_sector (short_mem_fs (Gives n) t) s k = Ok b /\ is_sector img k b).
  { intros n Hn. destruct (A k) as (b & E & I). exists b. split; [|exact I]. rewrite <- E. unfold read_sector. destruct (lin_get k s) as [[d|p i|]|]; auto.
    cbn [short_mem_fs std_mem_fs copy_in]. unfold short_copy_mem, std_copy_mem. destruct (lookup_tree p t) as [[c|]|]; auto. rewrite short_slice_full by exact Hn. reflexivity. }
  destruct a as [n|e]; [apply F|].
  destruct (A k) as (b & E & I). unfold read_sector in E |- *. destruct (lin_get k s) as [[d|p i|]|]; eauto. left.
  cbn [short_mem_fs std_mem_fs copy_in] in *. unfold short_copy_mem, std_copy_mem in *. destruct (lookup_tree p t) as [[c|]|]; cbn [bind] in *; try discriminate.
  unfold short_slice_copy. rewrite len_fill. cbn [N.ltb N.sub N.min N.eqb sys_read]. reflexivity.
Qed.
