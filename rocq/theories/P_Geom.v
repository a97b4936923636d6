(** Geometry of packed images (C21) and interrupted runs (C22). *)
From Verif Require Import M_Base M_Util M_Layout M_Avl M_Sector M_Dirtab M_Read M_Img.
From Verif Require Import S_Avl S_Codec S_Table S_Read S_Img.
From Verif Require Import P_Base P_Codec P_Layout P_Place P_Dirtab P_Table P_Find P_Read P_Witness P_Map P_Tree P_Tabs P_Scan P_Disk P_Plan P_Pack P_Run P_Bytes P_Image P_File P_Back P_Packed P_Param P_More.
From Coq Require Import Init.Byte Permutation Sorted Lia.
Local Open Scope N_scope.

Lemma covers_dec w i : {covers w i} + {~ covers w i}.
Proof.
  unfold covers. destruct (fst w <=? i) eqn:E1; [|right; apply N.leb_gt in E1; lia].
  destruct (i <? fst w + len (snd w)) eqn:E2; [left|right]; [apply N.leb_le in E1; apply N.ltb_lt in E2|apply N.ltb_ge in E2]; lia.
Qed.

Lemma covered l img i : get (writes l img) i <> get img i -> exists w, In w l /\ covers w i.
Proof.
  intros H. destruct (Exists_dec (fun w => covers w i) l (fun w => covers_dec w i)) as [He|Hn].
  - apply Exists_exists in He. exact He.
  - destruct H. apply writes_other. intros w Hw Hc. apply Hn. apply Exists_exists. eauto.
Qed.

Section Geom.
Variables (m : build) (t : ftree) (pls : list placed) (rs : N).
Hypothesis HP : proper t.
Hypothesis HL : laid m t pls rs.
Notation d := (file_dev (final t pls rs)).
Notation root := (mkRegion 33 rs).

Lemma final_zero i : byte_at (final t pls rs) i <> x00 ->
  65536 <= i < 67584 \/ exists p t' r, at_path t p t' /\ region_at d root p r /\ 2048 * r_sector r <= i < 2048 * r_sector r + extent t' r.
Proof.
  change (byte_at (final t pls rs) i) with (get (final t pls rs) i). intros H.
  assert (Hb : get (body t pls rs) i <> x00).
  { unfold final, pad in H. destruct (N.ltb_spec i (len (body t pls rs))) as [Hi|Hi]; [rewrite get_app_l in H by exact Hi; exact H|].
    rewrite get_app_r, get_fill in H by exact Hi. congruence. }
  unfold body in Hb. assert (Hz : get [] i = x00) by (apply get_past; rewrite (@len_nil byte); lia). rewrite <- Hz in Hb.
  apply covered in Hb as (w & Hw & Hc). apply in_app_or in Hw as [Hw|[<-|[]]].
  2:{ left. unfold covers in Hc. cbn [fst snd] in Hc. rewrite desc_len in Hc. lia. }
  right. apply in_map_iff in Hw as ([q [off b]] & <- & Hw). destruct (wl_reg m t pls rs HP HL q off b Hw) as (s & n & R1 & -> & R2 & [(A & ->)|(pl & P1 & P2 & P3 & P4 & P5)]).
  - exists q, (FFile b), (mkRegion s (len b)). ssplit; auto; [eapply reg_region; eauto| |]; unfold covers in Hc; cbn [fst snd extent r_sector r_size] in *; lia.
  - exists q, (FDir (cs_at t q)), (mkRegion s n). assert (Hat : at_path t q (FDir (cs_at t q))) by (rewrite <- P2; eapply pl_at; eauto).
    ssplit; auto; [eapply reg_region; eauto| |]; unfold covers in Hc; cbn [fst snd extent r_sector r_size] in *; lia.
Qed.

Lemma final_disjoint p p' t1 t2 r r' : at_path t p t1 -> at_path t p' t2 -> p <> p' -> region_at d root p r -> region_at d root p' r' ->
  r_sector r + sectors (r_size r) <= r_sector r' \/ r_sector r' + sectors (r_size r') <= r_sector r.
Proof.
  intros A1 A2 Hne R1 R2. pose proof (region_reg m t pls rs HP HL _ _ _ A1 R1) as I1. pose proof (region_reg m t pls rs HP HL _ _ _ A2 R2) as I2.
  eapply reg_disjoint; eauto.
Qed.

Lemma final_above p t1 r : at_path t p t1 -> region_at d root p r -> 33 <= r_sector r.
Proof.
  intros A1 R1. pose proof (region_reg m t pls rs HP HL _ _ _ A1 R1) as I1. eapply reg_bounds in I1; eauto. apply I1.
Qed.
End Geom.

Lemma c21_lemma m t img : source t -> packs m t img ->
  len img mod 65536 = 0
  /\ exists b root, file_dev img 65536 2048 = Ok b /\ descriptor b root /\ r_sector root = 33
     /\ (forall p p' t1 t2, at_path t p t1 -> at_path t p' t2 -> p <> p' ->
           exists r r', region_at (file_dev img) root p r /\ region_at (file_dev img) root p' r' /\ 33 <= r_sector r /\
             (r_sector r + sectors (r_size r) <= r_sector r' \/ r_sector r' + sectors (r_size r') <= r_sector r))
     /\ forall i, byte_at img i <> x00 ->
          65536 <= i < 67584
          \/ exists p t' r, at_path t p t' /\ region_at (file_dev img) root p r /\ 2048 * r_sector r <= i < 2048 * r_sector r + extent t' r.
Proof.
  intros Hs Hp. destruct (packs_final m t img Hs Hp) as (pls & rs & HL & ->). destruct Hs as (_ & HP & _).
  split; [apply padded_multiple|]. exists (desc_bytes rs), (mkRegion 33 rs). split; [eapply desc_view; eauto|].
  split; [apply desc_descriptor; pose proof (ld_rs _ _ _ _ HL); unfold u32_modulus; lia|]. split; [reflexivity|]. split.
  - intros p p' t1 t2 A1 A2 Hne. destruct (region_of_reg m t pls rs HP HL p _ A1) as (r & H1 & _).
    destruct (region_of_reg m t pls rs HP HL p' _ A2) as (r' & H2 & _). exists r, r'. split; auto. split; auto.
    split; [eapply final_above; [exact HP|exact HL|exact A1|exact H1]|]. eapply final_disjoint; [exact HP|exact HL|exact A1|exact A2|exact Hne|exact H1|exact H2].
  - intros i Hi. eapply final_zero; eauto.
Qed.

(** ** Interrupted runs *)
Fixpoint cut (k : N) (l : list (N * list byte)) : list (N * list byte) :=
  match l with
  | [] => []
  | w :: l => if len (snd w) <=? k then w :: cut (k - len (snd w)) l else [(fst w, firstn (N.to_nat k) (snd w))]
  end.
Fixpoint left_over (k : N) (l : list (N * list byte)) : option N :=
  match l with
  | [] => Some k
  | w :: l => if len (snd w) <=? k then left_over (k - len (snd w)) l else None
  end.

Lemma cut_app k a b : cut k (a ++ b) = match left_over k a with Some k' => a ++ cut k' b | None => cut k a end.
Proof.
  revert k. induction a as [|w a IH]; intros k; cbn [cut left_over app]; [reflexivity|]. destruct (N.leb_spec (len (snd w)) k) as [H|H]; [|reflexivity].
  rewrite IH. destruct (left_over (k - len (snd w)) a); reflexivity.
Qed.
Lemma left_app k a b : left_over k (a ++ b) = match left_over k a with Some k' => left_over k' b | None => None end.
Proof. revert k. induction a as [|w a IH]; intros k; cbn [left_over app]; [reflexivity|]. destruct (len (snd w) <=? k); auto. Qed.

Lemma cut_in k l w : In w (cut k l) -> exists w0, In w0 l /\ fst w = fst w0 /\ len (snd w) <= len (snd w0).
Proof.
  revert k. induction l as [|w0 l IH]; intros k; cbn [cut]; [intros []|]. destruct (N.leb_spec (len (snd w0)) k) as [H|H].
  - intros [<-|Hin]; [exists w0; cbn; ssplit; auto; lia|]. destruct (IH _ Hin) as (w1 & ? & ? & ?). exists w1. cbn. auto.
  - intros [<-|[]]. exists w0. cbn [fst snd]. ssplit; auto; [left; auto|]. unfold len. rewrite firstn_length. lia.
Qed.

Lemma exec_crash e (fs : fsys (list byte * N)) t steps : proper t -> crash_copies fs t -> copies_ok t steps -> forall img k evs,
  exists k' evs' r, exec (crash_wdev e) fs steps ((img, k), evs) = (((writes (cut k (flat_map (sw t) steps)) img, k'), evs'), r)
    /\ match left_over k (flat_map (sw t) steps) with Some k1 => r = Ok tt /\ k' = k1 | None => exists x, r = Err x end.
Proof.
  intros HP Hc. induction steps as [|s steps IH]; intros Hok img k evs.
  - cbn. do 3 eexists. split; [reflexivity|]. auto.
  - inversion Hok as [|? ? Hs Hok']; subst. specialize (IH Hok'). cbn [exec flat_map]. rewrite cut_app, left_app.
    destruct s as [ev|off b|p off size]; cbn [exec_step sw se left_over cut app fst snd].
    + unfold pbind at 1, report. cbn [fst snd]. apply IH.
    + unfold pbind at 1, pwrite. cbn [crash_wdev dev_write fst snd]. unfold crash_write. cbn [fst snd].
      destruct (N.leb_spec (len b) k) as [H|H]; cbn [map_err].
      * apply IH.
      * do 3 eexists. split; [reflexivity|]. eauto.
    + destruct Hs as (b & Hat & Esz). rewrite (file_bytes_at t HP p b Hat).
      unfold pbind at 1. unfold pcopy, pbind at 1. cbn [fst snd]. subst size.
      destruct (Hc p b (img, k) off Hat) as (x & ->). unfold crash_write. cbn [fst snd].
      destruct (N.leb_spec (len b) k) as [H|H]; cbn [map_err].
      * apply IH.
      * do 3 eexists. split; [reflexivity|]. eauto.
Qed.

(** Any image whose descriptor sector lacks the last byte is rejected. *)
Lemma file_dev_ok img o n b : file_dev img o n = Ok b -> n <> 0 -> b = slice img o n /\ o + n <= len img.
Proof. unfold file_dev. intros H Hn. destruct (N.eqb_spec n 0); [congruence|]. destruct (N.leb_spec (o + n) (len img)); [|discriminate]. split; congruence. Qed.

Lemma magic_last b r : descriptor b r -> get (slice b 2028 20) 19 = x41.
Proof.
  intros D. assert (L : len b = 2048) by apply D. apply (descriptor_iff b L r) in D as (V & _).
  apply volume_valid_iff in V as (_ & V). unfold volume_de in V. cbn [v_magic1] in V. rewrite V. reflexivity.
Qed.

Lemma no_volume img : get img 67583 = x00 -> forall v, read_volume (file_dev img) <> Ok v.
Proof.
  intros H v Hv. destruct (c25_lemma _ (file_lawful img) (file_calm img)) as (H1 & _). destruct (H1 v Hv) as (b & Hb & D). clear H1 Hv.
  apply magic_last in D. apply file_dev_ok in Hb as (-> & _); [|discriminate]. rewrite !get_slice in D by lia.
  replace (65536 + (2028 + 19)) with 67583 in D by reflexivity. rewrite H in D. discriminate.
Qed.

Lemma high_cut t steps k img : Forall high steps -> get (writes (cut k (flat_map (sw t) steps)) img) 67583 = get img 67583.
Proof.
  intros H. apply writes_other. intros w Hw Hc. apply cut_in in Hw as (w0 & Hin & E & _). apply in_flat_map in Hin as (s & Hs & Hw0).
  rewrite Forall_forall in H. specialize (H s Hs). unfold covers in Hc. destruct s; cbn in Hw0, H; [tauto| |]; destruct Hw0 as [<-|[]]; cbn [fst] in E; lia.
Qed.

Lemma body_readable m t pls rs z : source t -> laid m t pls rs -> readable (file_dev (body t pls rs ++ z)) t.
Proof.
  intros (Ht & HP & Hs) HL. set (dd := file_dev (body t pls rs ++ z)).
  assert (Hd : dd 65536 2048 = Ok (desc_bytes rs)).
  { unfold dd. apply file_dev_app.
    pose proof (writes_view (map snd (wl t pls) ++ [(65536, desc_bytes rs)]) [] (65536, desc_bytes rs) (wl_apart m t pls rs HP HL)) as H.
    specialize (H ltac:(apply in_or_app; right; left; auto) ltac:(discriminate) 0 2048). cbn [fst snd] in H. rewrite N.add_0_r in H.
    unfold body. rewrite H by (rewrite desc_len; lia). reflexivity. }
  assert (Hh : holds dd t (mkRegion 33 rs)).
  { refine (image_tree m t pls rs HP HL dd _ t [] 33 rs (at_here _) (or_introl eq_refl)).
    intros q off b Hin Hne. unfold dd. eapply body_view; eauto. }
  destruct (c25_lemma dd (file_lawful _) (file_calm _)) as (_ & H & _).
  destruct (H _ _ Hd (desc_descriptor rs ltac:(pose proof (ld_rs _ _ _ _ HL); unfold u32_modulus; lia))) as (v & Hv & Er).
  exists v. split; [exact Hv|]. rewrite Er. intros segs path n t' Hn Hpath. destruct (holds_found _ _ _ _ _ Hn _ Hh) as (e & L & E1 & E2 & E3).
  exists e. split; [eapply c31_lemma; eauto; apply file_lawful|]. split; [exact E1|]. split; [exact E2|].
  intros b ->. apply read_held. exact E3.
Qed.

Lemma high_placed m t pls rs : proper t -> laid m t pls rs -> forall w, In w (map snd (wl t pls)) -> 67584 <= fst w.
Proof.
  intros HP HL w Hw. apply in_map_iff in Hw as ([q [off b]] & <- & Hw). cbn [snd fst].
  destruct (wl_reg m t pls rs HP HL q off b Hw) as (s & n & R1 & -> & _). eapply reg_bounds in R1; eauto. lia.
Qed.

Lemma c22_lemma m t x fs fuel k evs img k' evs' r : source t -> presents fs t -> crash_copies fs t ->
  create_xdvdfs_image fuel m (crash_wdev x) fs (([], k), evs) = (((img, k'), evs'), r) -> r <> OutOfFuel ->
  ((forall v, read_volume (file_dev img) <> Ok v) \/ readable (file_dev img) t)
  /\ (r = Ok tt -> readable (file_dev img) t).
Proof.
  intros HS Hp Hc Hrun Hr. pose proof HS as (Ht & HP & Hs).
  pose proof (create_more m (crash_wdev x) fs fuel (fuel + S (length (dirs [] t))) _ _ _ Hrun Hr ltac:(lia)) as Hrun'. clear Hrun.
  destruct (pack_run m t HP Hs Ht) as (steps & o & Ho & H). rewrite (H _ _ _ _ _ _ Hp) in Hrun' by lia. clear H.
  assert (Hz : get [] 67583 = x00) by (apply get_past; rewrite (@len_nil byte); lia).
  destruct Ho as [pls rs HL|steps e Hre Hok Hh].
  - pose proof (steps_copies m t pls rs HP HL) as Hok.
    destruct (exec_crash x fs t (all_steps t pls rs) HP Hc Hok [] k evs) as (k1 & evs1 & r1 & E & Hl). unfold pbind at 1 in Hrun'. rewrite E in Hrun'.
    rewrite steps_writes in *. rewrite cut_app, left_app in *. destruct (left_over k (map snd (wl t pls))) as [k2|].
    + cbn [cut left_over fst snd] in *. rewrite desc_len in *. destruct (N.leb_spec 2048 k2) as [Hk|Hk].
      * destruct Hl as (-> & ->). cbv iota in Hrun'. cbn [cut left_over fst snd] in *.
        match goal with H : finish _ _ ((?i, _), _) = _ |- _ => change i with (body t pls rs) in H end.
        cbn [finish] in Hrun'. unfold pbind at 1 in Hrun'. unfold pad_image in Hrun'. unfold pbind at 1 in Hrun'.
        unfold M_Img.plen in Hrun'. cbn [crash_wdev dev_len fst snd map_err] in Hrun'. change (32 * 2048) with 65536 in Hrun'.
        assert (Hall : exists z, img = body t pls rs ++ z).
        { destruct (0 <? len (body t pls rs) mod 65536).
          - unfold pwrite in Hrun'. cbn [crash_wdev dev_write fst snd] in Hrun'. unfold crash_write in Hrun'. cbn [fst snd] in Hrun'.
            destruct (_ <=? k2 - 2048) in Hrun'; cbn [map_err] in Hrun'; rewrite write_end in Hrun'; unfold report in Hrun'; cbn [fst snd] in Hrun'; injection Hrun' as <- _ _ _; eauto.
          - cbn in Hrun'. injection Hrun' as <- _ _ _. exists []. rewrite app_nil_r. reflexivity. }
        destruct Hall as (z & ->). pose proof (body_readable m t pls rs z HS HL). auto.
      * destruct Hl as (y & ->). cbv iota in Hrun'. injection Hrun' as <- _ _ <-. split; [left|discriminate]. apply no_volume.
        rewrite writes_other; [exact Hz|]. intros w Hw Hcv. apply in_app_or in Hw as [Hw|[<-|[]]].
        -- apply (high_placed m t pls rs HP HL) in Hw. unfold covers in Hcv. lia.
        -- unfold covers in Hcv. cbn [fst snd] in Hcv. unfold len in Hcv. rewrite firstn_length in Hcv.
           pose proof (desc_len rs) as Hd. unfold len in Hd. lia.
    + destruct Hl as (y & ->). cbv iota in Hrun'. injection Hrun' as <- _ _ <-. split; [left|discriminate]. apply no_volume.
      rewrite writes_other; [exact Hz|]. intros w Hw Hcv. apply cut_in in Hw as (w0 & Hw & E1 & _). apply (high_placed m t pls rs HP HL) in Hw. unfold covers in Hcv. lia.
  - destruct (exec_crash x fs t steps HP Hc Hok [] k evs) as (k1 & evs1 & r1 & E & Hl). unfold pbind at 1 in Hrun'. rewrite E in Hrun'.
    assert (Hg : get (writes (cut k (flat_map (sw t) steps)) []) 67583 = x00) by (rewrite high_cut by exact Hh; exact Hz).
    destruct (left_over k (flat_map (sw t) steps)).
    + destruct Hl as (-> & ->). cbn [finish plift] in Hrun'. injection Hrun' as <- _ _ <-. split; [left; apply no_volume; exact Hg|discriminate].
    + destruct Hl as (y & ->). injection Hrun' as <- _ _ <-. split; [left; apply no_volume; exact Hg|discriminate].
Qed.

(** A host file system whose copies are interrupted. *)
Definition crash_fs (x : ioerr) (t : ftree) : fsys (list byte * N) :=
  mkFsys _ (std_read_dir t)
    (fun p s _ off _ => match lookup_tree p t with
                        | Some (FFile b) => let (s', ok) := crash_write s off b in (s', if ok then Ok (len b) else Err x)
                        | _ => (s, Err x)
                        end).
Lemma crash_fs_ok x t : proper t -> presents (crash_fs x t) t /\ crash_copies (crash_fs x t) t.
Proof.
  intros HP. split.
  - intros p cs H. destruct (std_presents t HP p cs H) as (l & H1 & H2). exists l. auto.
  - intros p b s off H. apply lookup_at in H; auto. exists x. cbn. rewrite H. reflexivity.
Qed.
