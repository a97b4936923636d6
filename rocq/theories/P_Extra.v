(** Packing from image files (C73, C100), opening through FUSE (C101), info about
    the volume (C102), rewriting directories (C51). *)
From Verif Require Import M_Base M_Util M_Layout M_Read M_Img M_Dev M_Xfs M_Remap M_Cli M_Unpack M_Exiso M_Stdfs M_Fuse M_Host.
From Verif Require Import S_Avl S_Codec S_Table S_Read S_Img S_Dev S_Xfs S_Check S_Cli S_Unpack S_Exiso S_Stdfs.
From Verif Require Import P_Base P_Witness P_Layout P_Codec P_Read P_Find P_Tree P_More P_Repack P_Check P_Cli P_Host P_Mono P_Unpack P_Exiso P_Stdfs.
From Verif Require Import M_Host.
From Coq Require Import Init.Byte Strings.String Lia.
From Coq Require Import List.
Local Close Scope string_scope.
Local Open Scope N_scope.

(** ** Packing from an image file *)
Lemma any_image_run m file d v t h q : h q = Some (HFile file) -> open_image file = Ok d -> read_volume d = Ok v -> scans d t (v_root v) -> source t -> latin_tree t ->
  exists img o, returns (fun fuel => image_packer fuel m h q) (img, o)
   /\ (representable m t /\ o = Ok tt /\ packs m t img \/ ~ representable m t /\ o = Err HPack).
Proof.
  intros Hq Ho Hv Hs HS HL. destruct (open_image_base _ _ Ho) as (base & Hb & ->).
  destruct (repack_lemma m _ v t (std_copier file base) [] Hv Hs HS HL (std_exact file base)) as (img & evs' & o & (k & R1) & R2).
  exists img, (match o with Ok _ => Ok tt | Err _ => Err HPack | Panic p => Panic p | OutOfFuel => OutOfFuel end). split.
  - exists k. intros fuel Hf. unfold image_packer. rewrite Hq, Hb, (R1 fuel Hf). reflexivity.
  - destruct R2 as [(H1 & -> & H2)|(H1 & e & -> & _)]; [left|right]; auto.
Qed.
Lemma c73_any m cwd x w p q file d v t : Forall unix_name cwd -> w_left w = None -> rooted (w_fs w) -> canonicalize (w_fs w) cwd x = Ok p -> w_fs w p = Some (HFile file) ->
  moved_to p q -> p <> q -> w_fs w q <> Some HDir ->
  open_image file = Ok d -> read_volume d = Ok v -> scans d t (v_root v) -> source t -> latin_tree t ->
  exists img o w', returns (fun fuel => exiso_repack cwd (image_packer fuel m) None false [x] w) (w', o)
   /\ w_fs w' q = Some (HFile file) /\ w_fs w' p = Some (HFile img) /\ (forall z, z <> p -> z <> q -> w_fs w' z = w_fs w z)
   /\ (representable m t /\ o = Ok tt /\ packs m t img \/ ~ representable m t /\ o = Err HPack).
Proof.
  intros Hcwd HL HR Hc Hb Hm Hpq Hq Ho Hv Hs HS HLt. set (h1 := hset (hunset (w_fs w) p) q (HFile file)).
  destruct (any_image_run m file d v t (hset h1 p (HFile [])) q) as (img & o & (k & H2) & H3); auto.
  { rewrite hset_neq by auto. apply hset_eq. }
  exists img, o, (mkWorld (hset (hset h1 p (HFile [])) p (HFile img)) None). cbn [w_fs]. ssplit; auto.
  - exists k. intros fuel Hf. rewrite (rewrite_run cwd _ x w p q file) by auto. fold h1. unfold packed_to. rewrite (H2 fuel Hf). reflexivity.
  - rewrite !hset_neq by auto. apply hset_eq.
  - apply hset_eq.
  - intros z Hz1 Hz2. rewrite !hset_neq by auto. unfold h1. rewrite hset_neq by auto. unfold hunset. destruct (hpath_eqb_spec z p); [congruence|reflexivity].
Qed.
Lemma c100_lemma m ls cwd src i w p file d v t : canonicalize (w_fs w) cwd src = Ok p -> w_fs w p = Some (HFile file) ->
  open_image file = Ok d -> read_volume d = Ok v -> scans d t (v_root v) -> source t -> latin_tree t ->
  ready_for_file cwd i w -> place cwd i <> p ->
  exists w' o img, returns (fun fuel => cmd_pack cwd (std_packer ls fuel m) src (Some i) w) (w', o)
   /\ w_fs w' (place cwd i) = Some (HFile img) /\ (forall q, q <> place cwd i -> w_fs w' q = w_fs w q)
   /\ (representable m t /\ o = Ok tt /\ packs m t img \/ ~ representable m t /\ o = Err HPack).
Proof.
  intros Hc Hp Ho Hv Hs HS HL HW Hn. assert (Hl : ~ leads_to p (place cwd i)).
  { intros (c & E). pose proof HW as (_ & HR & _ & _ & _ & dir & n & Hpl & Hdir & _). rewrite Hpl in E. destruct c as [|a c] using rev_ind; [rewrite app_nil_r in E; congruence|].
    rewrite app_assoc in E. apply app_inj_tail in E as (E & _). subst dir. destruct c as [|b c]; [rewrite app_nil_r in Hdir; congruence|].
    assert (X : w_fs w p = Some HDir) by (apply (rooted_prefix (w_fs w) p (b :: c)); [exact HR|congruence|discriminate]). congruence. }
  destruct (any_image_run m file d v t (hset (w_fs w) (place cwd i) (HFile [])) p) as (img & o & (k & R) & H3); auto.
  { rewrite hset_neq by auto. exact Hp. }
  exists (mkWorld (hset (hset (w_fs w) (place cwd i) (HFile [])) (place cwd i) (HFile img)) None), o, img. cbn [w_fs]. ssplit; auto.
  - exists k. intros fuel Hf. unfold cmd_pack. unfold hbind at 1, hres at 1, existing. rewrite Hc. cbn [bind]. rewrite Hp. cbn [ok_or bind]. unfold hbind, hres.
    rewrite (pack_path_run cwd _ p i w _ Hp HW Hl). unfold packed_to, std_packer. rewrite !hset_neq, Hp by auto. rewrite (R fuel Hf). reflexivity.
  - apply hset_eq.
  - intros q Hq. rewrite !hset_neq by auto. reflexivity.
Qed.

(** ** Rewriting directories *)
Lemma c51_directory cwd pk directory delete x xs w p : canonicalize (w_fs w) cwd x = Ok p -> w_fs w p = Some HDir ->
  exiso_repack cwd pk directory delete (x :: xs) w = (w, Err HRefused).
Proof. intros Hc Hp. cbn [exiso_repack]. unfold hbind, repack_one, hbind, hres, existing. rewrite Hc. cbn [bind]. rewrite Hp. reflexivity. Qed.

(** ** FUSE *)
Lemma c101_lemma flags : fuse_open flags = Ok tt /\ (forall i, In i [0; 1; 6; 9] -> N.testbit flags i = false)
  \/ fuse_open flags = Err ENOTSUP /\ exists i, In i [0; 1; 6; 9] /\ N.testbit flags i = true.
Proof.
  unfold fuse_open. destruct (N.eqb_spec (N.land flags 579) 0) as [E|E].
  - left. split; [reflexivity|]. intros i Hi. assert (B : N.testbit (N.land flags 579) i = false) by (rewrite E; apply N.bits_0). rewrite N.land_spec in B.
    destruct Hi as [<-|[<-|[<-|[<-|[]]]]]; destruct (N.testbit flags _); auto; discriminate B.
  - right. split; [reflexivity|]. destruct (N.testbit flags 0) eqn:B0; [exists 0; cbn; intuition|]. destruct (N.testbit flags 1) eqn:B1; [exists 1; cbn; intuition|].
    destruct (N.testbit flags 6) eqn:B6; [exists 6; cbn; intuition|]. destruct (N.testbit flags 9) eqn:B9; [exists 9; cbn; intuition|]. destruct E. apply N.bits_inj_0. intros n. rewrite N.land_spec.
    assert (C : n = 0 \/ n = 1 \/ n = 6 \/ n = 9 \/ N.testbit 579 n = false).
    { destruct (N.lt_ge_cases n 10) as [H|H].
      - assert (D : In n [0; 1; 2; 3; 4; 5; 6; 7; 8; 9]) by (cbn; lia). destruct D as [<-|[<-|[<-|[<-|[<-|[<-|[<-|[<-|[<-|[<-|[]]]]]]]]]]]; vm_compute; tauto.
      - do 4 right. apply N.bits_above_log2. change (N.log2 579) with 9. lia. }
    destruct C as [->|[->|[->|[->|C]]]]; rewrite ?B0, ?B1, ?B6, ?B9, ?C; auto using andb_false_r.
Qed.

(** ** info *)
Lemma open_cases file : (exists d v, open_image file = Ok d /\ read_volume d = Ok v) \/ ((forall d, open_image file <> Ok d) /\ open_image file = Err InvalidVolume).
Proof.
  unfold open_image, offset_wrapper_new. induction XDVD_OFFSETS as [|o os IH]; cbn [probe]; [right; split; [discriminate|reflexivity]|].
  destruct (volume_dec (offset_dev (file_dev file) o)) as [(v & Hv & _)|(He & _)]; [apply offset_lawful, file_lawful|apply offset_calm, file_calm| |].
  - left. rewrite Hv. cbn [bind]. eauto.
  - rewrite He. exact IH.
Qed.
Lemma c102_lemma m fuel file :
  (exists d b r time, open_image file = Ok d /\ d 65536 2048 = Ok b /\ descriptor b r /\ field b 28 8 time
    /\ cmd_info m fuel file None = ([text "Valid:               true"; text "Creation time:       " ++ decimal time;
         text "Root Entry:          Sector " ++ decimal (r_sector r) ++ text " (" ++ decimal (r_size r) ++ text " bytes)"], Ok tt))
  \/ ((forall d, open_image file <> Ok d) /\ cmd_info m fuel file None = ([], Err InvalidVolume)).
Proof.
  unfold cmd_info. destruct (open_cases file) as [(d & v & Ho & Hv)|(Ho & He)].
  - left. rewrite Ho. cbn [try]. rewrite Hv. cbn [try]. pose proof (image_lawful _ _ Ho) as HL. pose proof Hv as Hv'. apply read_volume_iff in Hv'; auto. destruct Hv' as (b & Eb & HD & ->).
    pose proof HD as (Hlen & _). pose proof (volume_fields _ (volume_de_wf b Hlen)) as F. cbv zeta in F. rewrite volume_ser_de in F by auto. destruct F as (_ & _ & _ & _ & F & _).
    exists d, b, (v_root (volume_de b)), (v_filetime (volume_de b)). ssplit; auto. unfold print_volume, say, done. cbn [fst snd].
    apply descriptor_iff in HD as (HV & _); auto. rewrite HV. reflexivity.
  - right. split; [exact Ho|]. rewrite He. reflexivity.
Qed.
