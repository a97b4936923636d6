(** Buffered output (C55). *)
From Verif Require Import M_Base M_Util M_Layout M_Avl M_Sector M_Dirtab M_Read M_Img M_Dev.
From Verif Require Import S_Avl S_Codec S_Table S_Read S_Img S_Dev.
From Verif Require Import P_Base P_Codec P_Place P_Dirtab P_Table P_Find P_Read P_Witness P_Map P_Tree P_Tabs P_Scan P_Disk P_Plan P_Pack P_Run P_Bytes P_Image P_File P_Back P_Packed P_Param P_More P_Geom P_Dev.
From Coq Require Import Init.Byte Permutation Sorted Lia.
Local Open Scope N_scope.

Notation bw := (bufw (list byte)).
Definition as_file (w : bw) : list byte := file_write (bw_in w) (bw_pos w) (bw_buf w).
Definition cursor (w : bw) : N := bw_pos w + len (bw_buf w).

Lemma fresh_file s p : as_file (mkBufw s p []) = s.
Proof. reflexivity. Qed.
Lemma fresh_cursor s p : cursor (mkBufw s p []) = p.
Proof. unfold cursor. cbn [bw_pos bw_buf]. rewrite (@len_nil byte). apply N.add_0_r. Qed.
Lemma flush_ok w : bw_flush raw_file w = (mkBufw (as_file w) (cursor w) [], Ok tt).
Proof.
  unfold bw_flush, as_file, cursor. destruct w as [s p [|x b]]; cbn [bw_in bw_pos bw_buf]; [rewrite (@len_nil byte), N.add_0_r|]; reflexivity.
Qed.
Lemma seek_ok w off : bw_seek raw_file w off = (mkBufw (as_file w) off [], Ok tt).
Proof. unfold bw_seek, bw_then. rewrite flush_ok. reflexivity. Qed.
Lemma raw_ok w b : bw_buf w = [] -> exists w', bw_raw raw_file w b = (w', Ok tt) /\ as_file w' = file_write (as_file w) (cursor w) b /\ cursor w' = cursor w + len b.
Proof.
  intros H. unfold bw_raw, as_file, cursor. cbn [raw_file raw_write]. eexists. split; [reflexivity|]. cbn [bw_in bw_pos bw_buf]. rewrite H, (@len_nil byte), N.add_0_r.
  split; [reflexivity|lia].
Qed.
Lemma push_ok w b : as_file (mkBufw (bw_in w) (bw_pos w) (bw_buf w ++ b)) = file_write (as_file w) (cursor w) b
  /\ cursor (mkBufw (bw_in w) (bw_pos w) (bw_buf w ++ b)) = cursor w + len b.
Proof. unfold as_file, cursor. cbn [bw_in bw_pos bw_buf]. rewrite write_write, len_app. split; [reflexivity|lia]. Qed.

Lemma write_all_ok cap w b : exists w', bw_write_all raw_file cap w b = (w', Ok tt) /\ as_file w' = file_write (as_file w) (cursor w) b /\ cursor w' = cursor w + len b.
Proof.
  unfold bw_write_all. destruct (N.ltb_spec (len b) (cap - len (bw_buf w))) as [H|H].
  - eexists. split; [reflexivity|]. apply push_ok.
  - destruct (N.ltb_spec (cap - len (bw_buf w)) (len b)) as [H2|H2].
    + unfold bw_then. rewrite flush_ok. cbn [fst snd]. destruct (cap <=? len b).
      * destruct (raw_ok (mkBufw (as_file w) (cursor w) []) b eq_refl) as (w' & E1 & E2 & E3). exists w'. split; [exact E1|].
        rewrite E2, E3, fresh_file, fresh_cursor. split; reflexivity.
      * eexists. split; [reflexivity|]. destruct (push_ok (mkBufw (as_file w) (cursor w) []) b) as (E2 & E3). rewrite E2, E3.
        rewrite fresh_file, fresh_cursor. split; reflexivity.
    + unfold bw_then. cbn [fst snd]. destruct (N.leb_spec cap (len b)) as [H3|H3].
      * destruct (bw_buf w) as [|x l] eqn:E; [apply raw_ok; auto|]. rewrite len_cons in *. assert (Hb : b = []) by (apply nil_len; lia). subst b.
        unfold bw_raw. cbn [raw_file raw_write file_write]. eexists. split; [reflexivity|]. unfold as_file, cursor. cbn [bw_in bw_pos bw_buf file_write].
        rewrite (@len_nil byte), !N.add_0_r. split; reflexivity.
      * eexists. split; [reflexivity|]. apply push_ok.
Qed.

Lemma piece_ok cap w p : exists w', bw_piece raw_file cap w p = (w', Ok tt) /\ as_file w' = file_write (as_file w) (cursor w) (piece_bytes p) /\ cursor w' = cursor w + len (piece_bytes p).
Proof.
  destruct p as [b|b]; cbn [bw_piece piece_bytes]; [apply write_all_ok|]. unfold bw_then. rewrite flush_ok. cbn [fst snd].
  destruct (raw_ok (mkBufw (as_file w) (cursor w) []) b eq_refl) as (w' & E1 & E2 & E3). exists w'. split; [exact E1|].
  rewrite E2, E3, fresh_file, fresh_cursor. split; reflexivity.
Qed.

Lemma pieces_ok cap l : forall w, exists w', bw_pieces raw_file cap l w = (w', Ok tt)
  /\ as_file w' = file_write (as_file w) (cursor w) (concat (map piece_bytes l)).
Proof.
  unfold bw_pieces. induction l as [|p l IH]; intros w; [exists w; split; reflexivity|]. cbn [fold_left map concat].
  destruct (piece_ok cap w p) as (w1 & E1 & E2 & E3). unfold bw_then at 2. cbn [fst snd]. rewrite E1. destruct (IH w1) as (w2 & F1 & F2).
  exists w2. split; [exact F1|]. rewrite F2, E2, E3. apply write_write.
Qed.

Lemma seek_write_ok cap w off b : exists w', dev_write (bufw_wdev raw_file cap) w off b = (w', Ok tt) /\ as_file w' = file_write (as_file w) off b
  /\ (bw_in w' = as_file w \/ bw_in w' = as_file w').
Proof.
  cbn [bufw_wdev dev_write]. unfold bw_then. rewrite seek_ok. cbn [fst snd].
  destruct (write_all_ok cap (mkBufw (as_file w) off []) b) as (w' & E1 & E2 & E3). exists w'. split; [exact E1|].
  rewrite E2, fresh_file, fresh_cursor. split; [reflexivity|].
  revert E1. unfold bw_write_all. cbn [bw_in bw_pos bw_buf]. rewrite (@len_nil byte).
  destruct (_ <? _); [intros [= <-]; left; reflexivity|]. unfold bw_then. destruct (cap - 0 <? len b).
  - rewrite flush_ok. cbn [fst snd]. destruct (cap <=? len b).
    + unfold bw_raw. cbn [raw_file raw_write]. intros [= <-]. right. cbn [bw_in]. rewrite fresh_file, fresh_cursor. reflexivity.
    + intros [= <-]. left. unfold as_file. cbn [bw_in bw_pos bw_buf file_write]. reflexivity.
  - cbn [fst snd]. destruct (cap <=? len b).
    + unfold bw_raw. cbn [raw_file raw_write bw_in bw_pos bw_buf]. intros [= <-]. right. reflexivity.
    + intros [= <-]. left. reflexivity.
Qed.

Lemma exec_buf cap (fs : fsys bw) t steps : proper t -> buf_copies cap fs t -> copies_ok t steps -> forall w evs,
  exists w', exec (bufw_wdev raw_file cap) fs steps (w, evs) = ((w', evs ++ flat_map se steps), Ok tt)
   /\ as_file w' = writes (flat_map (sw t) steps) (as_file w).
Proof.
  intros HP Hc. induction steps as [|s steps IH]; intros Hok w evs.
  - exists w. cbn. rewrite app_nil_r. auto.
  - inversion Hok as [|? ? Hs Hok']; subst. specialize (IH Hok'). cbn [exec flat_map]. rewrite writes_app. rewrite !app_assoc.
    destruct s as [e|off b|p off size]; cbn [exec_step sw se].
    + unfold pbind at 1. unfold report. cbn [fst snd]. destruct (IH w (evs ++ [e])) as (w' & E1 & E2). exists w'. split; [exact E1|exact E2].
    + unfold pbind at 1. unfold pwrite. cbn [fst snd]. destruct (seek_write_ok cap w off b) as (w1 & E1 & E2 & _). rewrite E1. cbn [map_err].
      destruct (IH w1 evs) as (w' & F1 & F2). exists w'. rewrite app_nil_r. split; [exact F1|]. rewrite F2, E2. reflexivity.
    + destruct Hs as (b & Hb & ->). rewrite (file_bytes_at t HP p b Hb). destruct (Hc p b w off Hb) as (l & Hl & Hcp).
      unfold pbind at 1. unfold pbind at 1. unfold pcopy. cbn [fst snd]. rewrite Hcp. unfold bw_then. rewrite seek_ok. cbn [fst snd].
      destruct (pieces_ok cap l (mkBufw (as_file w) off [])) as (w1 & E1 & E2). rewrite E1. cbn [map_err pret].
      destruct (IH w1 evs) as (w' & F1 & F2). exists w'. rewrite app_nil_r. split; [exact F1|]. rewrite F2, E2, Hl.
      rewrite fresh_file, fresh_cursor. reflexivity.
Qed.

Lemma drop_ok w : bw_drop raw_file w = as_file w.
Proof. unfold bw_drop. rewrite flush_ok. reflexivity. Qed.

Definition most_steps (t : ftree) (pls : list placed) : list step := map SReport (first_events t) ++ concat (map pl_steps pls).
Lemma all_most t pls (rs : N) : all_steps t pls rs = most_steps t pls ++ [SWrite 65536 (desc_bytes rs)].
Proof. unfold all_steps, most_steps. rewrite app_assoc. reflexivity. Qed.
Lemma most_writes t pls (rs : N) : flat_map (sw t) (most_steps t pls) = map snd (wl t pls).
Proof.
  pose proof (steps_writes t pls rs) as H. rewrite all_most, flat_map_app in H. cbn [flat_map sw app] in H. apply app_inj_tail in H. apply H.
Qed.
Lemma most_events t pls (rs : N) : flat_map se (most_steps t pls) = run_events t pls.
Proof. rewrite <- (steps_events t pls rs), all_most, flat_map_app. cbn. rewrite app_nil_r. reflexivity. Qed.

(** The root table lies above the descriptor. *)
Lemma most_long m t pls rs : proper t -> laid m t pls rs -> 67584 <= len (writes (map snd (wl t pls)) []).
Proof.
  intros HP HL. destruct (ld_root _ _ _ _ HL) as (pl0 & pls' & E & _ & Hs & _).
  assert (Hpl : In pl0 pls) by (rewrite E; left; auto).
  assert (Hin : In (pl_sector pl0 * SECTOR_SIZE, entry_table (pl_table pl0)) (map snd (wl t pls))).
  { apply in_map_iff. exists (pl_path pl0, (pl_sector pl0 * SECTOR_SIZE, entry_table (pl_table pl0))). split; [reflexivity|]. apply wl_in. left. eauto. }
  destruct (writes_len (map snd (wl t pls)) []) as (_ & H & _). specialize (H _ Hin (table_nonempty m t pls rs pl0 HL Hpl)). cbn [fst snd] in H.
  rewrite Hs in H. unfold SECTOR_SIZE in H. lia.
Qed.

Lemma writes_last l off b img : writes (l ++ [(off, b)]) img = file_write (writes l img) off b.
Proof. rewrite writes_app. reflexivity. Qed.

Lemma c55_lemma m t cap fs fsf fuel evs img evs' r : source t -> presents fs t -> buf_copies cap fs t -> presents fsf t -> copies fsf t ->
  create_xdvdfs_image fuel m file_wdev fsf ([], evs) = ((img, evs'), r) -> r <> OutOfFuel ->
  exists w, returns (fun fuel => create_xdvdfs_image fuel m (bufw_wdev raw_file cap) fs (bw_new [], evs)) ((w, evs'), r)
    /\ bw_drop raw_file w = img.
Proof.
  intros (Ht & HP & Hs) Hp Hc Hpf Hcf Hrun Hr.
  pose proof (create_more m file_wdev fsf fuel (fuel + S (length (dirs [] t))) _ _ _ Hrun Hr ltac:(lia)) as Hrun'. clear Hrun.
  destruct (pack_run m t HP Hs Ht) as (steps & o & Ho & H). rewrite (H _ file_wdev fsf _ [] evs Hpf) in Hrun' by lia.
  destruct Ho as [pls rs HL|steps e Hre Hok Hh].
  - pose proof (steps_copies m t pls rs HP HL) as Hok. unfold pbind at 1 in Hrun'. rewrite (exec_file fsf t) in Hrun' by auto.
    rewrite steps_writes, steps_events in Hrun'. fold (body t pls rs) in Hrun'.
    cbn [finish] in Hrun'. unfold pbind at 1 in Hrun'. rewrite pad_file in Hrun'. unfold report in Hrun'. cbn [fst snd] in Hrun'. injection Hrun' as <- <- <-.
    assert (Hok1 : copies_ok t (most_steps t pls)) by (rewrite all_most in Hok; apply Forall_app in Hok; apply Hok).
    destruct (exec_buf cap fs t (most_steps t pls) HP Hc Hok1 (bw_new []) evs) as (w1 & E1 & E2). rewrite (most_writes t pls rs) in E2. rewrite (most_events t pls rs) in E1.
    change (as_file (bw_new [])) with (@nil byte) in E2.
    destruct (seek_write_ok cap w1 65536 (desc_bytes rs)) as (w2 & F1 & F2 & F3).
    assert (Hbody : as_file w2 = body t pls rs) by (rewrite F2, E2; symmetry; apply writes_last).
    assert (Hlen : len (bw_in w2) = len (body t pls rs)).
    { destruct F3 as [F3|F3]; [|rewrite F3, Hbody; reflexivity]. rewrite F3, <- Hbody, F2, write_len, desc_len, E2.
      pose proof (most_long m t pls rs HP HL). destruct (N.eqb_spec 2048 0); lia. }
    set (n := len (body t pls rs)) in *.
    destruct (seek_write_ok cap w2 n (fill (65536 - n mod 65536) x00)) as (w3 & G1 & G2 & _).
    assert (Hexec : exec (bufw_wdev raw_file cap) fs (all_steps t pls rs) (bw_new [], evs) = ((w2, evs ++ run_events t pls), Ok tt)).
    { rewrite all_most. rewrite (exec_app (bufw_wdev raw_file cap) fs (most_steps t pls) [SWrite 65536 (desc_bytes rs)] (bw_new [], evs)).
      unfold pbind at 1. rewrite E1. cbn [exec exec_step]. unfold pbind, pwrite. cbn [fst snd]. rewrite F1. reflexivity. }
    exists (if 0 <? n mod 65536 then w3 else w2). split.
    + exists (S (length (dirs [] t))). intros fu Hf. rewrite (H _ (bufw_wdev raw_file cap) fs _ _ _ Hp) by lia. unfold pbind at 1. rewrite Hexec. cbn [finish].
      unfold pbind at 1. unfold pad_image, pbind at 1. unfold M_Img.plen. cbn [bufw_wdev dev_len raw_file raw_len fst snd map_err]. rewrite Hlen.
      change (32 * 2048) with 65536. destruct (0 <? n mod 65536); [unfold pwrite|]; cbn [fst snd]; [rewrite G1|]; reflexivity.
    + rewrite drop_ok. unfold final, pad, padding. fold n. destruct (0 <? n mod 65536).
      * rewrite G2, Hbody. apply write_end.
      * rewrite app_nil_r. exact Hbody.
  - unfold pbind at 1 in Hrun'. rewrite (exec_file fsf t) in Hrun' by auto. cbn [finish plift] in Hrun'. injection Hrun' as <- <- <-.
    destruct (exec_buf cap fs t steps HP Hc Hok (bw_new []) evs) as (w & E1 & E2). exists w. split; [|rewrite drop_ok; exact E2].
    exists (S (length (dirs [] t))). intros fu Hf. rewrite (H _ (bufw_wdev raw_file cap) fs _ _ _ Hp) by lia. unfold pbind at 1. rewrite E1. reflexivity.
Qed.

Lemma std_buf_ok cap split t : proper t -> (forall b, concat (map piece_bytes (split b)) = b) ->
  presents (std_buf_fs raw_file cap split t) t /\ buf_copies cap (std_buf_fs raw_file cap split t) t.
Proof.
  intros HP Hsp. split.
  - intros p cs H. destruct (std_presents t HP p cs H) as (l & H1 & H2). exists l. auto.
  - intros p b w off H. apply lookup_at in H; auto. exists (split b). split; [apply Hsp|]. cbn. rewrite H. unfold bw_copy.
    rewrite slice_full. reflexivity.
Qed.
