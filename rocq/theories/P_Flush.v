(** Buffered output to a device that may fail (C59). *)
From Verif Require Import M_Base M_Util M_Layout M_Avl M_Sector M_Dirtab M_Read M_Img M_Dev.
From Verif Require Import S_Avl S_Codec S_Table S_Read S_Img S_Dev.
From Verif Require Import P_Base P_Codec P_Place P_Dirtab P_Table P_Find P_Read P_Witness P_Map P_Tree P_Tabs P_Scan P_Disk P_Plan P_Pack P_Run P_Bytes P_Image P_File P_Back P_Packed P_Param P_More P_Geom P_Dev P_Buf.
From Coq Require Import Init.Byte Lia.
Local Open Scope N_scope.

Section Flush.
Context {S : Type} (R : raw S) (bytes : S -> list byte) (cap : N) (split : list byte -> list piece) (t : ftree).
Hypothesis HR : writes_or_fails R bytes.
Definition seen (w : bufw S) : bw := mkBufw (bytes (bw_in w)) (bw_pos w) (bw_buf w).

Lemma seen_flush w w' u : bw_flush R w = (w', Ok u) -> bw_flush raw_file (seen w) = (seen w', Ok u).
Proof.
  unfold bw_flush, seen. cbn [bw_in bw_pos bw_buf]. destruct (bw_buf w) as [|x b] eqn:Eb; [intros [= <- <-]; rewrite Eb; reflexivity|].
  destruct (raw_write R _ _ _) as [s r] eqn:Er. destruct r as [v| | |]; try discriminate. intros [= <- <-].
  apply (proj1 HR) in Er. cbn [raw_file raw_write bw_in bw_pos bw_buf]. rewrite Er. reflexivity.
Qed.
Lemma seen_raw w b w' u : bw_raw R w b = (w', Ok u) -> bw_raw raw_file (seen w) b = (seen w', Ok u).
Proof.
  unfold bw_raw, seen. cbn [bw_in bw_pos bw_buf]. destruct (raw_write R _ _ _) as [s r] eqn:Er. destruct r as [v| | |]; try discriminate. intros [= <- <-].
  apply (proj1 HR) in Er. cbn [raw_file raw_write bw_in bw_pos bw_buf]. rewrite Er. reflexivity.
Qed.
Lemma seen_then x k x' k' w' u : bw_then x k = (w', Ok u) ->
  (forall w v, x = (w, Ok v) -> x' = (seen w, Ok v)) -> (forall w, k w = (w', Ok u) -> k' (seen w) = (seen w', Ok u)) -> bw_then x' k' = (seen w', Ok u).
Proof.
  intros H H1 H2. unfold bw_then in *. destruct x as [w r]. cbn [fst snd] in H. destruct r as [v| | |]; try discriminate.
  rewrite (H1 w v eq_refl). cbn [fst snd]. auto.
Qed.
Lemma seen_seek w off w' u : bw_seek R w off = (w', Ok u) -> bw_seek raw_file (seen w) off = (seen w', Ok u).
Proof. intros H. eapply seen_then; [exact H|intros; apply seen_flush; assumption|]. intros w1 [= <- <-]. reflexivity. Qed.
Lemma seen_write_all w b w' u : bw_write_all R cap w b = (w', Ok u) -> bw_write_all raw_file cap (seen w) b = (seen w', Ok u).
Proof.
  unfold bw_write_all. change (bw_buf (seen w)) with (bw_buf w). destruct (_ <? _); [intros [= <- <-]; reflexivity|]. intros H. eapply seen_then; [exact H| |].
  - destruct (_ <? _); [intros; apply seen_flush; assumption|]. intros w1 v [= <- <-]. reflexivity.
  - cbn beta. intros w1. destruct (_ <=? _); [apply seen_raw|]. intros [= <- <-]. reflexivity.
Qed.
Lemma seen_piece w p w' u : bw_piece R cap w p = (w', Ok u) -> bw_piece raw_file cap (seen w) p = (seen w', Ok u).
Proof.
  destruct p as [b|b]; cbn [bw_piece]; [apply seen_write_all|]. intros H. eapply seen_then; [exact H|intros; apply seen_flush; assumption|].
  intros w1. apply seen_raw.
Qed.
Lemma fold_stuck l : forall x : bufw S * res ioerr unit, (forall u, snd x <> Ok u) -> fold_left (fun x p => bw_then x (fun w => bw_piece R cap w p)) l x = x.
Proof.
  induction l as [|p l IH]; intros [w r] Hx; [reflexivity|]. cbn [fold_left]. unfold bw_then at 2. cbn [fst snd] in *.
  destruct r as [u| | |]; [destruct (Hx u eq_refl)| | |]; apply IH; exact Hx.
Qed.
Lemma seen_pieces l : forall w w' u, bw_pieces R cap l w = (w', Ok u) -> bw_pieces raw_file cap l (seen w) = (seen w', Ok u).
Proof.
  unfold bw_pieces. induction l as [|p l IH]; intros w w' u H; [cbn in *; injection H as <- <-; reflexivity|]. cbn [fold_left] in *.
  unfold bw_then at 2 in H. unfold bw_then at 2. cbn [fst snd] in *. destruct (bw_piece R cap w p) as [w1 r] eqn:Ep.
  destruct r as [[]| | |].
  - rewrite (seen_piece _ _ _ _ Ep). apply IH. exact H.
  - rewrite fold_stuck in H by (cbn; discriminate). discriminate.
  - rewrite fold_stuck in H by (cbn; discriminate). discriminate.
  - rewrite fold_stuck in H by (cbn; discriminate). discriminate.
Qed.
Lemma seen_write w off b w' u : dev_write (bufw_wdev R cap) w off b = (w', Ok u) -> dev_write (bufw_wdev raw_file cap) (seen w) off b = (seen w', Ok u).
Proof. cbn [bufw_wdev dev_write]. intros H. eapply seen_then; [exact H|intros; apply seen_seek; assumption|]. intros w1. apply seen_write_all. Qed.
Lemma seen_copy p w off size w' n : copy_in (std_buf_fs R cap split t) p w 0 off size = (w', Ok n) ->
  copy_in (std_buf_fs raw_file cap split t) p (seen w) 0 off size = (seen w', Ok n).
Proof.
  cbn [std_buf_fs copy_in]. destruct (lookup_tree p t) as [[b|]|]; try discriminate. unfold bw_copy.
  destruct (bw_then (bw_seek R w off) _) as [w1 r] eqn:E. destruct r as [u| | |]; try discriminate. intros [= <- <-].
  erewrite (seen_then _ _ (bw_seek raw_file (seen w) off)); [reflexivity|exact E|intros; apply seen_seek; assumption|]. intros w2. apply seen_pieces.
Qed.

(** ** Programs *)
Notation W := (bufw_wdev R cap).
Notation F := (std_buf_fs R cap split t).
Notation W' := (bufw_wdev raw_file cap).
Notation F' := (std_buf_fs raw_file cap split t).
Definition follows {A} (x : prog (bufw S) A) (y : prog bw A) : Prop :=
  forall w evs w' evs' a, x (w, evs) = ((w', evs'), Ok a) -> y (seen w, evs) = ((seen w', evs'), Ok a).
Lemma follows_bind {A B} (x : prog (bufw S) A) y (k : A -> prog (bufw S) B) h : follows x y -> (forall a, follows (k a) (h a)) -> follows (pbind x k) (pbind y h).
Proof.
  intros H1 H2 w evs w' evs' b H. unfold pbind in *. destruct (x (w, evs)) as [[w1 evs1] r] eqn:E. destruct r as [a| | |]; try discriminate.
  rewrite (H1 _ _ _ _ _ E). apply H2. exact H.
Qed.
Lemma follows_ret {A} (a : A) : follows (pret a) (pret a).
Proof. intros w evs w' evs' b [= <- <- <-]. reflexivity. Qed.
Lemma follows_report e : follows (report e) (report e).
Proof. intros w evs w' evs' b [= <- <- <-]. reflexivity. Qed.
Lemma follows_lift {A} (r : res werr A) : follows (plift r) (plift r).
Proof. intros w evs w' evs' b [= <- <- ->]. reflexivity. Qed.
Lemma follows_write off b : follows (pwrite W off b) (pwrite W' off b).
Proof.
  intros w evs w' evs' u H. unfold pwrite in *. cbn [fst snd] in *. destruct (dev_write W w off b) as [w1 r] eqn:E. injection H as <- <- Hr.
  destruct r as [v| | |]; try discriminate. rewrite (seen_write _ _ _ _ _ E). injection Hr as ->. reflexivity.
Qed.
Lemma follows_copy p off size : follows (pcopy F p off size) (pcopy F' p off size).
Proof.
  intros w evs w' evs' n H. unfold pcopy in *. cbn [fst snd] in *. destruct (copy_in F p w 0 off size) as [w1 r] eqn:E. injection H as <- <- Hr.
  destruct r as [v| | |]; try discriminate. rewrite (seen_copy _ _ _ _ _ _ E). injection Hr as ->. reflexivity.
Qed.
Lemma follows_exec steps : follows (exec W F steps) (exec W' F' steps).
Proof.
  induction steps as [|s steps IH]; [apply follows_ret|]. cbn [exec]. apply follows_bind; [|intros _; exact IH].
  destruct s; cbn [exec_step]; [apply follows_report|apply follows_write|]. apply follows_bind; [apply follows_copy|intros; apply follows_ret].
Qed.
Lemma follows_finish o : follows (finish W o) (finish W' o).
Proof.
  destruct o as [e|]; cbn [finish]; [apply follows_lift|]. apply follows_bind; [|intros _; apply follows_report].
  unfold pad_image. apply follows_bind.
  - intros w evs w' evs' n H. unfold M_Img.plen in *. cbn [bufw_wdev dev_len fst snd] in *. injection H as <- <- <-. cbn [map_err seen bw_in raw_file raw_len].
    rewrite (proj2 HR). reflexivity.
  - intros n. destruct (_ <? _); [apply follows_write|apply follows_ret].
Qed.

Lemma buf_presents : proper t -> presents F t.
Proof. intros HP p cs H. destruct (std_presents t HP p cs H) as (l & H1 & H2). exists l. auto. Qed.

Lemma c59_lemma m fuel s w evs : source t -> (forall b, concat (map piece_bytes (split b)) = b) -> bytes s = [] ->
  create_xdvdfs_image fuel m W F (bw_new s, []) = ((w, evs), Ok tt) -> snd (bw_flush R w) = Ok tt -> packs m t (bytes (bw_drop R w)).
Proof.
  intros HS Hsp Hs0 Hrun Hfl. pose proof HS as (Ht & HP & Hs).
  destruct (std_buf_ok cap split t HP Hsp) as (B1 & B2).
  set (k := (fuel + Datatypes.S (length (dirs [] t)))%nat).
  pose proof (create_more m W F fuel k _ _ _ Hrun ltac:(discriminate) ltac:(unfold k; lia)) as Hrun1.
  destruct (pack_run m t HP Hs Ht) as (steps & o & Ho & H).
  rewrite (H _ W F k _ _ (buf_presents HP)) in Hrun1 by (unfold k; lia).
  assert (Hb : create_xdvdfs_image k m W' F' (bw_new [], []) = ((seen w, evs), Ok tt)).
  { rewrite (H _ W' F' k _ _ B1) by (unfold k; lia). rewrite <- Hs0. change (bw_new (bytes s)) with (seen (bw_new s)).
    eapply follows_bind; [apply follows_exec|intros ?; apply follows_finish|exact Hrun1]. }
  assert (Hf : exists img evs' r, create_xdvdfs_image k m file_wdev (std_fs t) ([], []) = ((img, evs'), r) /\ r <> OutOfFuel).
  { rewrite (H _ file_wdev (std_fs t) k _ _ (std_presents t HP)) by (unfold k; lia). unfold pbind at 1.
    assert (Hcop : copies_ok t steps) by (destruct Ho as [pls rs HL|steps e Hre Hok Hh]; [eapply steps_copies; eauto|exact Hok]).
    rewrite (exec_file (std_fs t) t) by (auto; apply std_copies; exact HP).
    destruct o as [e|]; cbn [finish]; [do 3 eexists; split; [reflexivity|discriminate]|]. unfold pbind. rewrite pad_file. do 3 eexists. split; [reflexivity|discriminate]. }
  destruct Hf as (img & evs' & r & Hf & Hr).
  destruct (c55_lemma m t cap F' (std_fs t) k [] img evs' r HS B1 B2 (std_presents t HP) (std_copies t HP) Hf Hr) as (w' & (k' & Hk) & Hd).
  pose proof (create_more m W' F' k (k + k') _ _ _ Hb ltac:(discriminate) ltac:(lia)) as Hb'. cbv beta in Hk. rewrite Hk in Hb' by lia. injection Hb' as -> -> ->.
  assert (Hdrop : bytes (bw_drop R w) = img).
  { rewrite <- Hd. unfold bw_drop. destruct (bw_flush R w) as [w1 r1] eqn:Ef. cbn [snd] in Hfl. subst r1. rewrite (seen_flush _ _ _ Ef). reflexivity. }
  rewrite Hdrop. exists (std_fs t), k, [], evs. ssplit; [apply std_presents; auto|apply std_copies; auto|exact Hf].
Qed.
End Flush.

Lemma crash_or_fails e : writes_or_fails (crash_raw e) fst.
Proof.
  split; [|reflexivity]. intros [img k] off b s' u. cbn [crash_raw raw_write]. unfold crash_write. cbn [fst snd].
  destruct (len b <=? k); intros H; [injection H as <- _; reflexivity|discriminate].
Qed.
