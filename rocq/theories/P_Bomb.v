(** Proofs about what an image contains compared to its size (C147). *)
From Verif Require Import M_Base M_Util M_Layout M_Avl M_Sector M_Dirtab M_Read M_Img M_Dev M_Remap M_Cli M_Host M_Unpack.
From Verif Require Import S_Avl S_Codec S_Table S_Read S_Img S_Check S_Cli S_Unpack S_Bomb.
From Verif Require Import P_Base P_Codec P_Layout P_Place P_Dirtab P_Table P_Read P_Path P_Find P_Term P_Witness P_Map P_Tree P_Tabs P_Disk P_Plan P_Pack P_Run P_Bytes P_Image P_File P_Back P_Packed P_Geom P_Ext P_Check P_Repack P_Cli P_Unpack.
From Coq Require Import Init.Byte Permutation Sorted Lia.
Local Open Scope N_scope.

(** ** Disjoint intervals *)
Definition sumN (l : list N) : N := fold_right N.add 0 l.
Definition disjoint (x y : N * N) : Prop := snd x = 0 \/ snd y = 0 \/ fst x + snd x <= fst y \/ fst y + snd y <= fst x.
Definition cells (x : N * N) : list nat := seq (N.to_nat (fst x)) (N.to_nat (snd x)).

Lemma cells_in x i : In i (cells x) <-> fst x <= N.of_nat i < fst x + snd x.
Proof. unfold cells. rewrite in_seq. lia. Qed.
Lemma nodup_app {A} (a b : list A) : NoDup a -> NoDup b -> (forall x, In x a -> ~ In x b) -> NoDup (a ++ b).
Proof.
  induction 1 as [|x a H1 H2 IH]; cbn; auto. intros Hb H. constructor; [|apply IH; auto].
  intros Hx. apply in_app_or in Hx as [Hx|Hx]; [auto|]. apply (H x); auto.
Qed.
Lemma intervals_fit L l : ForallOrdPairs disjoint l -> Forall (fun x => snd x = 0 \/ fst x + snd x <= L) l -> sumN (map snd l) <= L.
Proof.
  intros HD HF.
  assert (HN : NoDup (flat_map cells l)).
  { clear HF. induction HD as [|x l H1 H2 IH]; cbn [flat_map]; [constructor|]. apply nodup_app; auto; [apply seq_NoDup|].
    intros i Hi Hj. apply in_flat_map in Hj as (y & Hy & Hj). rewrite Forall_forall in H1. specialize (H1 y Hy).
    apply cells_in in Hi. apply cells_in in Hj. unfold disjoint in H1. lia. }
  assert (HI : incl (flat_map cells l) (seq 0 (N.to_nat L))).
  { intros i Hi. apply in_flat_map in Hi as (x & Hx & Hi). rewrite Forall_forall in HF. specialize (HF x Hx). apply cells_in in Hi.
    apply in_seq. lia. }
  pose proof (NoDup_incl_length HN HI) as H. rewrite seq_length in H.
  assert (E : N.of_nat (length (flat_map cells l)) = sumN (map snd l)).
  { clear. induction l as [|x l IH]; cbn [flat_map map sumN fold_right]; auto. rewrite app_length. unfold cells at 1. rewrite seq_length.
    unfold sumN in IH. lia. }
  lia.
Qed.

(** ** The bytes that an entry needs *)
Definition weight (t : ftree) : N := match t with FFile b => len b | FDir cs => 16 * len cs end.
Definition need (t : ftree) : N := weight t + sumN (map (fun x => weight (snd x)) (nodes t)).

Lemma sumN_app a b : sumN (a ++ b) = sumN a + sumN b.
Proof. unfold sumN. induction a; cbn; lia. Qed.
Lemma need_count t : need t = 16 * count_entries t + count_bytes t.
Proof.
  induction t as [b|cs IH] using ftree_rect'; unfold need; cbn [weight nodes count_entries count_bytes map]; [cbn; lia|].
  rewrite map_app, sumN_app, map_map. cbn [snd].
  assert (G : sumN (map (fun c => weight (snd c)) cs)
     + sumN (map (fun x => weight (snd x)) (concat (map (fun c => map (fun x => (fst c :: fst x, snd x)) (nodes (snd c))) cs)))
     = 16 * fold_right (fun c k => count_entries (snd c) + k) 0 cs + fold_right (fun c k => count_bytes (snd c) + k) 0 cs).
  { induction IH as [|c cs Hc IH IHl]; [reflexivity|]. cbn [map concat fold_right]. rewrite map_app, sumN_app, map_map. cbn [snd].
    unfold need, path in *. unfold sumN in *. cbn [fold_right]. lia. }
  unfold path, sumN in *. cbn [snd] in *. lia.
Qed.

Lemma covering m t pls rs img : proper t -> laid m t pls rs ->
  (forall q off b, In (q, (off, b)) (wl t pls) -> b <> [] -> view (file_dev img) off b) ->
  forall q t', at_path t q t' -> weight t' <> 0 ->
  exists s n, In (q, (s, n)) (regs rs pls) /\ weight t' <= 2048 * sectors n /\ 2048 * s + weight t' <= len img.
Proof.
  intros HP HL HV q t' Hat Hw. destruct (reg_exists m t pls rs HP HL q t' Hat) as (s & n & Hr). exists s, n. split; auto.
  destruct t' as [b|cs]; cbn [weight] in *.
  - pose proof (image_tree m t pls rs HP HL (file_dev img) HV _ q s n Hat Hr) as Hh. inversion Hh as [? ? H1 H2|]; subst. cbn [r_size r_sector] in *.
    subst n. split; [unfold sectors; destruct (N.eqb_spec (len b) 0); lia|].
    assert (Hb : b <> []) by (intros ->; apply Hw; reflexivity). specialize (H2 Hb). apply file_dev_ok in H2; [|exact Hw]. lia.
  - destruct (pl_exists m t pls rs HL _ _ Hat) as (pl & Hpl & Eq).
    assert (Hin : In (q, (pl_sector pl * SECTOR_SIZE, entry_table (pl_table pl))) (wl t pls)) by (apply wl_in; left; eauto).
    destruct (wl_reg m t pls rs HP HL _ _ _ Hin) as (s' & n' & R1 & R2 & R3 & R4).
    pose proof (reg_fun m t pls rs HP HL _ _ _ Hr R1) as E. injection E as <- <-.
    pose proof (ld_ok _ _ _ _ HL) as HF. rewrite Forall_forall in HF.
    destruct (HF _ Hpl) as [Hat' (xs & D & sz & F1 & F2 & F3 & F4 & F5 & F6 & F7 & F8 & F9)]. rewrite Eq in *.
    pose proof (at_fun t HP _ _ _ Hat Hat') as E. injection E as E. rewrite <- E in *.
    assert (Htb : entry_table (pl_table pl) <> []).
    { intros X. rewrite X in F8. rewrite (@len_nil byte) in F8. unfold sectors in F8. destruct (N.eqb_spec sz 0); lia. }
    specialize (HV _ _ _ Hin Htb). change SECTOR_SIZE with 2048 in *.
    destruct (F9 (file_dev img) (pl_sector pl) sz) as (T & T1 & T2 & T3 & T4 & T5 & T6); [rewrite N.mul_comm; exact HV|lia|].
    assert (Hl : len cs = len (inorder T)).
    { pose proof (Forall2_length _ _ _ T2) as L2. pose proof (Forall2_length _ _ _ F1) as L3. pose proof (Permutation_length F2) as L4. rewrite map_length in L4.
      unfold len. lia. }
    assert (Hs : sz <= 2048 * sectors sz) by (unfold sectors; destruct (N.eqb_spec sz 0); lia).
    specialize (HV 0 (len (entry_table (pl_table pl)))). rewrite N.add_0_r in HV. specialize (HV ltac:(lia)).
    apply file_dev_ok in HV; [|rewrite F8; unfold sectors; destruct (N.eqb_spec sz 0); lia]. lia.
Qed.

Lemma choose (P : path * ftree -> N * N -> Prop) l : (forall x, In x l -> exists y, P x y) -> exists l', Forall2 P l l'.
Proof.
  induction l as [|x l IH]; intros H; [exists []; constructor|]. destruct (H x (or_introl eq_refl)) as (y & Hy).
  destruct IH as (l' & Hl); [intros z Hz; apply H; right; auto|]. exists (y :: l'). constructor; auto.
Qed.

Lemma c147_lemma m t img : source t -> packs m t img -> 67584 + 16 * count_entries t + count_bytes t <= len img.
Proof.
  intros Hs Hp. destruct (packs_final m t img Hs Hp) as (pls & rs & HL & ->). destruct Hs as (_ & HP & _). set (img := final t pls rs).
  assert (HV : forall q off b, In (q, (off, b)) (wl t pls) -> b <> [] -> view (file_dev img) off b).
  { intros q off b Hin Hne. unfold img, final, pad. eapply body_view; eauto. }
  pose (all := ([], t) :: nodes t).
  assert (Hall : forall q t', In (q, t') all -> at_path t q t').
  { intros q t' [E|H]; [injection E as <- <-; constructor|]. apply nodes_in in H. apply H. }
  assert (Hnd : NoDup (map fst all)).
  { cbn [map fst all]. constructor; [|apply nodes_nodup; auto]. intros H. apply in_map_iff in H as ([q t'] & E & H). cbn in E. subst q.
    apply nodes_in in H. destruct H as (H & _). apply H. reflexivity. }
  pose (P := fun (x : path * ftree) (y : N * N) => snd y = weight (snd x) /\ (weight (snd x) = 0 \/
      exists s n, In (fst x, (s, n)) (regs rs pls) /\ weight (snd x) <= 2048 * sectors n /\ fst y = 2048 * s /\ 2048 * s + weight (snd x) <= len img)).
  destruct (choose P all) as (l & Hl).
  { intros [q t'] Hx. destruct (N.eq_dec (weight t') 0) as [E|E]; [exists (0, 0); split; [symmetry; exact E|left; exact E]|].
    destruct (covering m t pls rs img HP HL HV q t' (Hall _ _ Hx) E) as (s & n & C1 & C2 & C3). exists (2048 * s, weight t'). split; [reflexivity|].
    right. exists s, n. ssplit; auto. }
  assert (Hdesc : 67584 <= len img).
  { pose proof (desc_view t pls rs m HP HL) as H. apply file_dev_ok in H; [|discriminate]. unfold img. lia. }
  assert (Hfit : sumN (map snd ((0, 67584) :: l)) <= len img).
  { apply intervals_fit.
    - constructor.
      + clear Hnd. clearbody all. induction Hl as [|x y xs ys Hxy Hl IH]; constructor.
        * destruct Hxy as (E & [Z|(s & n & C1 & C2 & C3 & C4)]); [right; left; congruence|]. right. right. left. rewrite C3.
          pose proof (reg_bounds m t pls rs HL _ _ _ C1). cbn [fst snd]. lia.
        * apply IH. intros q t' H. apply Hall. right. exact H.
      + clear Hall. clearbody all. induction Hl as [|x y xs ys Hxy Hl IH]; constructor.
        * cbn [map] in Hnd. inversion Hnd as [|? ? N1 N2]; subst. clear IH. apply Forall_forall. intros y' Hy'.
          assert (X : exists x', In x' xs /\ P x' y').
          { clear -Hl Hy'. induction Hl as [|a b xs ys H Hl IH]; [destruct Hy'|]. destruct Hy' as [->|Hy']; [exists a; split; [left; auto|exact H]|].
            destruct (IH Hy') as (x' & A & B). exists x'. split; [right; exact A|exact B]. }
          destruct X as (x' & Hx' & Hxy').
          destruct Hxy as (E & [Z|(s & n & C1 & C2 & C3 & C4)]); [left; congruence|].
          destruct Hxy' as (E' & [Z'|(s' & n' & C1' & C2' & C3' & C4')]); [right; left; congruence|].
          right. right. assert (Hne : fst x <> fst x') by (intros X; apply N1; pose proof (in_map fst _ _ Hx') as Y; unfold path in *; rewrite <- X in Y; exact Y).
          rewrite C3, C3', E, E'. destruct (reg_disjoint m t pls rs HL _ _ _ _ _ _ C1 C1' Hne); [left|right]; lia.
        * cbn [map] in Hnd. inversion Hnd as [|? ? N1 N2]; subst. apply IH. exact N2.
    - constructor; [right; cbn [fst snd]; lia|]. clear Hnd Hall. clearbody all. induction Hl as [|x y xs ys Hxy Hl IH]; constructor; auto.
      destruct Hxy as (E & [Z|(s & n & C1 & C2 & C3 & C4)]); [left; congruence|]. right. rewrite C3, E. exact C4. }
  assert (E : map snd l = map (fun x => weight (snd x)) all).
  { clear -Hl. induction Hl as [|x y xs ys Hxy Hl IH]; cbn [map]; [reflexivity|]. rewrite IH. f_equal. apply Hxy. }
  cbn [map] in Hfit. change (sumN ((snd (0, 67584)) :: map snd l)) with (67584 + sumN (map snd l)) in Hfit. rewrite E in Hfit.
  change (sumN (map (fun x => weight (snd x)) all)) with (need t) in Hfit. rewrite need_count in Hfit. lia.
Qed.

(** ** A small image of a large tree *)
(** Two directories, a and b, with the same table in the next sector, ... *)
Definition bomb_sector (k : N) : list byte := record 0 4 k 2048 16 [x61] ++ record 0 0 k 2048 16 [x62] ++ fill 2016 xff.
(** ... and in the last one a file x, whose data is the volume descriptor. *)
Definition bomb_last : list byte := record 0 0 32 2048 32 [x78] ++ fill 2032 xff.
Fixpoint bomb_body (n : nat) (k : N) : list byte :=
  match n with O => bomb_last | S n => bomb_sector (k + 1) ++ bomb_body n (k + 1) end.
Definition bomb_data : list byte := volume_ser (volume_new root33).
Definition bomb_img (n : nat) : list byte := fill 65536 x00 ++ bomb_data ++ bomb_body n 33.
Fixpoint bomb_tree (n : nat) : ftree :=
  match n with O => FDir [([120], FFile bomb_data)] | S n => FDir [([97], bomb_tree n); ([98], bomb_tree n)] end.

Definition rec_node (l r sector size attrs : N) (name : list byte) : dnode := mkDnode l r (mkDdata (mkRegion sector size) attrs (len name)).
Definition rec_entry (l r sector size attrs : N) (name : list byte) (o : N) : dentry :=
  mkDentry (rec_node l r sector size attrs name) (name ++ fill (256 - len name) x00) o.

Lemma stored_rec d o l r sector size attrs name :
  d o 14 = Ok (dnode_ser (rec_node l r sector size attrs name)) -> d (o + 14) (len name) = Ok name ->
  l < 65536 -> r < 65536 -> sector < u32_modulus -> size < u32_modulus -> 0 < attrs < 255 -> len name < 256 ->
  stored d (rec_entry l r sector size attrs name o).
Proof.
  intros H1 H2 Hl Hr Hs Hz Ha Hn. set (dn := rec_node l r sector size attrs name) in *.
  pose proof (dnode_fields dn) as (F0 & F1 & F2 & F3 & F4 & F5 & F6). set (hdr := dnode_ser dn) in *.
  assert (Hbyte : forall x, hdr = fill 14 x -> attrs = b2n x).
  { intros x E. specialize (F5 0%nat (Nat.lt_0_succ _)). rewrite E in F5. cbn in F5. injection F5 as F5. rewrite F5.
    unfold byte_of. cbn. rewrite N.div_1_r. symmetry. apply N.mod_small. lia. }
  exists hdr, name. cbn [rec_entry e_offset e_node e_name]. fold dn. cbn [dn rec_node d_left d_right d_dirent d_region d_attrs d_namelen r_sector r_size].
  ssplit; auto; try lia.
  - intros E. apply Hbyte in E. change (b2n xff) with 255 in E. lia.
  - intros E. apply Hbyte in E. change (b2n x00) with 0 in E. lia.
Qed.

Lemma bomb_sector_len k : len (bomb_sector k) = 2048.
Proof. unfold bomb_sector, record. rewrite !len_app, !dnode_ser_len. reflexivity. Qed.
Lemma bomb_last_len : len bomb_last = 2048.
Proof. reflexivity. Qed.

Lemma view_app_l d o a b : view d o (a ++ b) -> view d o a.
Proof.
  intros H i n Hn. rewrite H by (rewrite len_app; lia). f_equal. unfold slice, len in *. rewrite skipn_app, firstn_app, skipn_length.
  replace (N.to_nat n - (length a - N.to_nat i))%nat with 0%nat by lia. cbn. apply app_nil_r.
Qed.
Lemma view_app_r d o a b : view d o (a ++ b) -> view d (o + len a) b.
Proof.
  intros H i n Hn. rewrite <- N.add_assoc. rewrite H by (rewrite len_app; lia). f_equal. unfold slice. rewrite skipn_app.
  rewrite skipn_all2 by (unfold len; lia). cbn. f_equal. f_equal. unfold len. lia.
Qed.

Lemma view_rec d o l r sector size attrs name rest : view d o (record l r sector size attrs name ++ rest) ->
  d o 14 = Ok (dnode_ser (rec_node l r sector size attrs name)) /\ d (o + 14) (len name) = Ok name.
Proof.
  intros H. apply view_app_l in H. unfold record in H. fold (rec_node l r sector size attrs name) in H. set (h := dnode_ser (rec_node l r sector size attrs name)) in *.
  assert (Hh : len h = 14) by apply dnode_ser_len. split.
  - apply view_app_l in H. specialize (H 0 14). rewrite N.add_0_r in H. pose proof (slice_app_l h []) as X. rewrite app_nil_r, Hh in X. rewrite H, X by lia. reflexivity.
  - apply view_app_r in H. apply view_app_l in H. rewrite Hh in H. specialize (H 0 (len name)). rewrite N.add_0_r in H. rewrite H by lia. f_equal.
    pose proof (slice_app_l name []) as X. rewrite app_nil_r in X. exact X.
Qed.

Lemma bomb_contains d : view d 65536 bomb_data -> forall n k, view d (2048 * k) (bomb_body n k) -> k + N.of_nat n < u32_modulus ->
  contains d (bomb_tree n) (mkRegion k 2048).
Proof.
  intros HD. induction n as [|n IH]; intros k HV Hk; cbn [bomb_tree bomb_body] in *.
  - destruct (view_rec _ _ _ _ _ _ _ _ _ HV) as (R1 & R2).
    pose (e := rec_entry 0 0 32 2048 32 [x78] (2048 * k)).
    assert (Se : stored d e) by (apply stored_rec; auto; try reflexivity; split; reflexivity).
    apply (ct_dir _ _ _ (Node Leaf e Leaf) [e]); [|reflexivity|].
    + split; [|repeat constructor]. cbn [tree_at r_size r_sector]. ssplit; auto; [reflexivity|cbn; lia].
    + constructor; [|constructor]. ssplit; [reflexivity|reflexivity|]. apply ct_file; [reflexivity|]. intros _.
      cbn [snd region_of e rec_entry e_node rec_node d_dirent d_region r_sector]. specialize (HD 0 (len bomb_data)). rewrite N.add_0_r in HD.
      change (2048 * 32) with 65536. pose proof (slice_app_l bomb_data []) as X. rewrite app_nil_r in X. rewrite HD, X by lia. reflexivity.
  - pose proof (view_app_l _ _ _ _ HV) as HV1. pose proof (view_app_r _ _ _ _ HV) as HV2. rewrite bomb_sector_len in HV2.
    replace (2048 * k + 2048) with (2048 * (k + 1)) in HV2 by lia. specialize (IH (k + 1) HV2 ltac:(lia)).
    pose (a := rec_entry 0 4 (k + 1) 2048 16 [x61] (2048 * k)). pose (b := rec_entry 0 0 (k + 1) 2048 16 [x62] (2048 * k + 16)).
    unfold bomb_sector in HV1. destruct (view_rec _ _ _ _ _ _ _ _ _ HV1) as (A1 & A2). apply view_app_r in HV1.
    replace (len (record 0 4 (k + 1) 2048 16 [x61])) with 16 in HV1 by (unfold record; rewrite !len_app, dnode_ser_len; reflexivity).
    destruct (view_rec _ _ _ _ _ _ _ _ _ HV1) as (B1 & B2).
    assert (Sa : stored d a) by (apply stored_rec; auto; try reflexivity; try lia; split; reflexivity).
    assert (Sb : stored d b) by (apply stored_rec; auto; try reflexivity; try lia; split; reflexivity).
    apply (ct_dir _ _ _ (Node Leaf a (Node Leaf b Leaf)) [a; b]); [|reflexivity|].
    + split.
      * cbn [tree_at r_size r_sector]. cbn [a b rec_entry rec_node e_offset e_node d_left d_right]. ssplit; auto; try reflexivity; lia.
      * cbn [inorder app]. constructor; [repeat constructor|]. constructor; [vm_compute; reflexivity|constructor].
    + constructor; [|constructor; [|constructor]]; (ssplit; [vm_compute; reflexivity| |exact IH]); destruct n; reflexivity.
Qed.

Lemma bomb_dir n : is_fdir (bomb_tree n) = true.
Proof. destruct n; reflexivity. Qed.

Lemma file_view a b c : view (file_dev (a ++ b ++ c)) (len a) b.
Proof.
  intros i n Hn. unfold file_dev. destruct (N.eqb_spec n 0) as [->|Hz]; [reflexivity|]. rewrite !len_app. destruct (N.leb_spec (len a + i + n) (len a + (len b + len c))); [|lia].
  f_equal. unfold slice, len in *. rewrite !skipn_app. rewrite skipn_all2 by lia. cbn [app].
  replace (N.to_nat (N.of_nat (length a) + i) - length a)%nat with (N.to_nat i) by lia. rewrite firstn_app, skipn_length.
  replace (N.to_nat n - (length b - N.to_nat i))%nat with 0%nat by lia. cbn. apply app_nil_r.
Qed.

Lemma bomb_image n : 33 + N.of_nat n < u32_modulus -> is_image (bomb_img n) (bomb_tree n).
Proof.
  intros Hn. exists (offset_dev (file_dev (bomb_img n)) 0), root33.
  assert (E : forall o k, file_dev (bomb_img n) o k = offset_dev (file_dev (bomb_img n)) 0 o k) by (intros; unfold offset_dev; rewrite N.add_0_r; reflexivity).
  assert (V1 : view (file_dev (bomb_img n)) 65536 bomb_data) by (apply (file_view (fill 65536 x00) bomb_data (bomb_body n 33))).
  assert (V2 : view (file_dev (bomb_img n)) (2048 * 33) (bomb_body n 33)).
  { pose proof (file_view (fill 65536 x00 ++ bomb_data) (bomb_body n 33) []) as H. rewrite app_nil_r, <- app_assoc in H. exact H. }
  assert (Hv : read_volume (offset_dev (file_dev (bomb_img n)) 0) = Ok (volume_new root33)).
  { assert (W : volume_wf (volume_new root33)) by (apply volume_new_wf; split; reflexivity).
    rewrite <- (read_volume_ext _ _ E). unfold read_volume. specialize (V1 0 2048). rewrite N.add_0_r in V1. change (SECTOR_SIZE * 32) with 65536.
    rewrite V1 by (vm_compute; discriminate). vm_compute. reflexivity. }
  split; [|split; [exists (volume_new root33); auto|split; [apply bomb_dir|]]].
  - unfold open_image, offset_wrapper_new, XDVD_OFFSETS. cbn [probe]. rewrite Hv. reflexivity.
  - eapply contains_ext; [exact E|]. apply bomb_contains; auto.
Qed.

Lemma bomb_len n : len (bomb_img n) = 69632 + 2048 * N.of_nat n.
Proof.
  assert (B : forall k, len (bomb_body n k) = 2048 + 2048 * N.of_nat n).
  { induction n as [|n IH]; intros k; cbn [bomb_body]; [reflexivity|]. rewrite len_app, bomb_sector_len, IH. lia. }
  unfold bomb_img. rewrite !len_app, B. change (len (fill 65536 x00)) with 65536. change (len bomb_data) with 2048. lia.
Qed.
Lemma bomb_files n : count_files (bomb_tree n) = 2 ^ N.of_nat n.
Proof. induction n as [|n IH]; [reflexivity|]. cbn [bomb_tree count_files fold_right snd]. rewrite IH, Nat2N.inj_succ, N.pow_succ_r'. lia. Qed.
Lemma bomb_bytes n : count_bytes (bomb_tree n) = 2048 * 2 ^ N.of_nat n.
Proof. induction n as [|n IH]; [reflexivity|]. cbn [bomb_tree count_bytes fold_right snd]. rewrite IH, Nat2N.inj_succ, N.pow_succ_r'. lia. Qed.

Lemma bomb_names n : unix_tree (bomb_tree n).
Proof.
  induction n as [|n IH]; intros p cs H nm Hnm; cbn [bomb_tree] in H.
  - inversion H as [|? ? ? q ? Hin Hat]; subst.
    + cbn in Hnm. destruct Hnm as [<-|[]]. unfold unix_name. ssplit; try discriminate; cbn; intuition discriminate.
    + destruct Hin as [[= <- <-]|[]]. inversion Hat.
  - inversion H as [|? ? ? q ? Hin Hat]; subst.
    + cbn in Hnm. destruct Hnm as [<-|[<-|[]]]; unfold unix_name; ssplit; try discriminate; cbn; intuition discriminate.
    + destruct Hin as [[= <- <-]|[[= <- <-]|[]]]; eapply IH; eauto.
Qed.

Lemma c147_bomb n cwd image_path dest w : 33 + N.of_nat n < u32_modulus -> ready_for cwd dest (bomb_tree n) w ->
  len (bomb_img n) = 69632 + 2048 * N.of_nat n
  /\ exists w', returns (fun fuel => cmd_unpack fuel cwd image_path (bomb_img n) (Some dest) w) (w', Ok tt)
      /\ restored (S_Unpack.place cwd dest) (bomb_tree n) (w_fs w) (w_fs w').
Proof. intros Hn Hr. split; [apply bomb_len|]. apply (P_Unpack.c48_lemma cwd image_path _ dest (bomb_tree n) w); auto; [apply bomb_image; exact Hn|apply bomb_names]. Qed.
