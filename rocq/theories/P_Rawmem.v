(** Proofs of C176. *)
From Verif Require Import M_Base M_Util M_Layout M_Read M_Img M_Dev M_Lin M_Special M_Rawmem.
From Verif Require Import S_Read S_Img S_Lin S_Special.
From Verif Require Import P_Base P_Pack P_Tree P_Bytes P_Dev P_Plan P_Run P_Lin P_Compress P_Special.
From Coq Require Import Init.Byte Lia.
Local Open Scope N_scope.

Lemma lin_seen t q : seen (raw_fs t) q -> seen (lin_fs (raw_mem_fs t)) q.
Proof. intros H. induction H as [|p es e H IH H1 H2 H3]; [constructor|]. exact (seen_child _ p es e IH H1 H2 H3). Qed.
Lemma c176_lists_lemma fuel m t s s' : raw_proper t -> compress_layout fuel m (raw_mem_fs t) s = (s', Ok tt) -> exists f, listable t f.
Proof.
  intros HP H. pose proof (c140_dirs _ _ _ _ _ _ H) as HR. destruct (HR [] (seen_root _)) as (es0 & He0).
  assert (Hroot : exists cs, t = RDir cs) by (cbn in He0; unfold raw_read_dir in He0; destruct t; try discriminate; eauto). destruct Hroot as (cs & ->).
  apply (raw_listable (RDir cs)) with (p := []); auto; [|constructor]. intros q Hq. exact (HR q (lin_seen _ _ Hq)).
Qed.

Lemma c176_sectors_lemma m t f img evs : raw_proper t -> listable t f -> source f -> packs m f img ->
  exists s evs', returns (fun fuel => compress_layout fuel m (raw_mem_fs t) ([], evs)) ((s, evs'), Ok tt) /\ lin_len s = len img
  /\ (forall k, (exists b, read_sector (raw_mem_fs t) s k = Ok b /\ is_sector img k b)
                \/ (read_sector (raw_mem_fs t) s k = Err PERMISSION_DENIED /\ exists p n, lookup_raw p t = Some (RSealed n) /\ n <> 0))
  /\ (forall p b, at_path f p (FFile b) -> b <> [] -> lookup_raw p t = Some (RSealed (len b)) ->
        exists k, 2048 * k < len img /\ read_sector (raw_mem_fs t) s k = Err PERMISSION_DENIED).
Proof.
  intros HP Hf HS Hpk. destruct (lin_run' m f img evs HS Hpk) as (pls & rs & s & evs' & HLd & Himg & Hrun & Hlen & Hinv & Hcp).
  exists s, evs'. split; [exists (Datatypes.S (length (dirs [] f))); intros fuel Hfu; apply Hrun; auto; exact (listable_presents t f Hf HP)|].
  split; [exact Hlen|]. split.
  - intros k. pose proof (linv_read f s img (std_mem_fs f) Hinv (std_sector_copies f (proj1 (proj2 HS))) k) as (b & E & I).
    destruct Hinv as (_ & B & _). specialize (B k). unfold read_sector in E |- *. destruct (lin_get k s) as [[d|p j|]|]; eauto.
    cbn [blk_ok] in B. destruct B as (c & Hat & Hj & _). destruct (listable_at t f Hf HP p _ Hat) as (t' & Hl & Hls & _).
    cbn [raw_mem_fs std_mem_fs copy_in] in *. unfold raw_copy_mem, std_copy_mem in *. rewrite Hl. apply lookup_at in Hat; [|exact (proj1 (proj2 HS))]. rewrite Hat in E.
    inversion Hls; subst; [left; eauto|]. right. split; [reflexivity|]. exists p, (len c). split; [exact Hl|]. lia.
  - intros p b Hat Hb Hl. destruct (file_copied m f pls rs p b HS HLd Hat) as (s0 & Hin & Hlt). exists s0. split; [rewrite Himg; auto|].
    assert (0 < len b) by (destruct b; [congruence|unfold len; cbn [length]; lia]).
    specialize (Hcp _ _ _ Hin ltac:(lia)). rewrite N.div_mul in Hcp by discriminate. unfold read_sector. rewrite Hcp.
    cbn [raw_mem_fs copy_in]. unfold raw_copy_mem. rewrite Hl. reflexivity.
Qed.

Lemma c176_all_lemma m t f img evs : raw_proper t -> listable t f -> source f -> packs m f img ->
  exists s evs', returns (fun fuel => compress_layout fuel m (raw_mem_fs t) ([], evs)) ((s, evs'), Ok tt)
  /\ ((forall k, 2048 * k < len img -> exists b, read_sector (raw_mem_fs t) s k = Ok b) ->
      forall p b, at_path f p (FFile b) -> b = [] \/ lookup_raw p t = Some (RFile b)).
Proof.
  intros HP Hf HS Hpk. destruct (c176_sectors_lemma m t f img evs HP Hf HS Hpk) as (s & evs' & R & _ & _ & A). exists s, evs'. split; [exact R|].
  intros HR p b Hat. destruct (listable_at t f Hf HP p _ Hat) as (t' & Hl & Hls & _). inversion Hls; subst; [right; exact Hl|].
  destruct b as [|x b]; [left; reflexivity|]. destruct (A p (x :: b) Hat ltac:(discriminate) Hl) as (k & Hk & E). destruct (HR k Hk) as (c & E'). congruence.
Qed.
