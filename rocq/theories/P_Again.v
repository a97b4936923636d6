(** Images that are written again (C141). *)
From Verif Require Import M_Base M_Util M_Layout M_Avl M_Sector M_Dirtab M_Read M_Img M_Dev M_Trie M_Xfs M_Check M_Remap M_Cli M_Unpack M_Exiso M_Extract M_Copyout M_Stdfs M_Host M_Main.
From Verif Require Import S_Avl S_Codec S_Table S_Read S_Img S_Dev S_Trie S_Xfs S_Check S_Cli S_Unpack S_Exiso S_Stdfs S_Fault S_Extract S_Sectors S_Main S_Again.
From Verif Require Import P_Base P_Tree P_Order P_Scan P_Read P_Find P_Back P_Packed P_Pack P_Run P_Image P_Witness P_More P_Trie P_Xfs P_Fuse P_Sectors P_Src P_File P_Dev P_Check P_Repack P_Cli P_Host P_Unpack P_Exiso P_Stdfs P_Fault P_Extract P_Extra P_Copyout P_Desk P_Tidy P_Main.
From Coq Require Import Init.Byte Lia Permutation Strings.String.
From Coq Require Import List.
Local Close Scope string_scope.
Local Open Scope N_scope.

(** ** A restored tree is a source *)
Lemma at_child cs n c p t' : In (n, c) cs -> at_path c p t' -> at_path (FDir cs) (n :: p) t'.
Proof. intros H1 H2. econstructor; eauto. Qed.
Lemma at_child_inv cs n c p t' : NoDup (map fst cs) -> In (n, c) cs -> at_path (FDir cs) (n :: p) t' -> at_path c p t'.
Proof.
  intros HN Hin H. inversion H as [|? ? c' ? ? Hin' Hat]; subst. replace c with c'; [exact Hat|].
  clear H Hat. induction cs as [|[m x] cs IH]; [destruct Hin|]. cbn [map fst] in HN. inversion HN as [|? ? K1 K2]; subst.
  destruct Hin as [E|Hin], Hin' as [E'|Hin'].
  - congruence.
  - injection E as -> ->. destruct K1. apply (in_map fst) in Hin'. exact Hin'.
  - injection E' as -> ->. destruct K1. apply (in_map fst) in Hin. exact Hin.
  - auto.
Qed.

Lemma ordered_tree h ls t : forall root, lists_host h ls -> proper t ->
  (forall p t', at_path t p t' -> h (root ++ p) = Some (as_node t')) -> (forall p x, h (root ++ p) = Some x -> exists t', at_path t p t') ->
  exists t', same_tree t t' /\ hosts h ls root t'.
Proof.
  induction t as [b|cs IH] using ftree_rect'; intros root HL HN H1 H2.
  - exists (FFile b). split; [constructor|]. split; [exact H1|]. split; [exact H2|]. intros p cs H. inversion H.
  - assert (HD : NoDup (map fst cs)) by (apply (HN [] cs); constructor).
    assert (K : exists cs', Forall2 (fun c d => fst c = fst d /\ same_tree (snd c) (snd d) /\ hosts h ls (root ++ [fst c]) (snd d)) cs cs').
    { assert (G : forall c, In c cs -> exists t', same_tree (snd c) t' /\ hosts h ls (root ++ [fst c]) t').
      { intros [n c] Hin. cbn [fst snd]. rewrite Forall_forall in IH. apply (IH (n, c) Hin); auto.
        - intros p ds Hp. apply (HN (n :: p)). eapply at_child; eauto.
        - intros p t' Hp. cbn [fst snd]. rewrite <- app_assoc. apply H1. eapply at_child; eauto.
        - intros p x Hp. cbn [fst snd] in Hp. rewrite <- app_assoc in Hp. destruct (H2 (n :: p) x Hp) as (t' & Ht). exists t'. eapply at_child_inv; eauto. }
      clear - G. induction cs as [|c cs IHc]; [exists []; constructor|]. destruct (G c (or_introl eq_refl)) as (t' & A & B).
      destruct IHc as (cs' & Hcs); [intros c' Hc'; apply G; right; exact Hc'|]. exists ((fst c, t') :: cs'). constructor; [cbn [fst snd]; auto|exact Hcs]. }
    destruct K as (cs' & HF).
    assert (Hfs : map fst cs' = map fst cs) by (clear - HF; induction HF as [|a b l l' (E & _) _ IHf]; [reflexivity|]; cbn [map]; rewrite E, IHf; reflexivity).
    assert (Hr : h root = Some HDir) by (rewrite <- (app_nil_r root); apply (H1 [] (FDir cs)); constructor).
    destruct (HL root Hr) as (L1 & L2).
    assert (HP : Permutation (ls root) (map fst cs')).
    { rewrite Hfs. apply NoDup_Permutation; auto. intros n. rewrite L2. split.
      - intros Hx. destruct (h (root ++ [n])) as [x|] eqn:E; [|congruence]. destruct (H2 _ _ E) as (t' & Ht). inversion Ht; subst. eapply in_map with (f := fst) in H4. exact H4.
      - intros Hi. apply in_map_iff in Hi as ([m c] & <- & Hi). cbn [fst]. rewrite (H1 [m] c); [discriminate|]. eapply at_child; [exact Hi|constructor]. }
    destruct (Permutation_map_inv _ _ HP) as (ds & E & HPd). exists (FDir ds). split.
    + econstructor; [symmetry; exact HPd|]. clear - HF. induction HF as [|a b l l' (A & B & _) _ IHf]; constructor; auto.
    + assert (HA : forall n d, In (n, d) ds -> exists c, In (n, c) cs /\ same_tree c d /\ hosts h ls (root ++ [n]) d).
      { intros n d Hi. apply (Permutation_in _ (Permutation_sym HPd)) in Hi. clear - Hi HF. induction HF as [|[m c] [m' d'] l l' (E & B & C) _ IHf]; [destruct Hi|].
        cbn [fst snd] in *. destruct Hi as [Q|Hi]; [injection Q as -> ->; subst; exists c; split; [left; reflexivity|auto]|].
        destruct (IHf Hi) as (c' & A' & B'). exists c'. split; [right; exact A'|exact B']. }
      split; [|split].
      * intros p t' Hp. inversion Hp as [|? n d q ? Hin Hq]; subst; [rewrite app_nil_r, Hr; reflexivity|].
        destruct (HA n d Hin) as (c & _ & _ & (A & _ & _)). specialize (A q t' Hq). rewrite <- app_assoc in A. exact A.
      * intros p x Hx. destruct p as [|n p]; [exists (FDir ds); constructor|]. destruct (H2 _ _ Hx) as (t' & Ht). inversion Ht as [|? ? c ? ? Hin Hat]; subst.
        assert (Hn : In n (map fst ds)) by (eapply Permutation_in; [apply Permutation_map; exact HPd|]; rewrite Hfs; apply (in_map fst) in Hin; exact Hin).
        apply in_map_iff in Hn as ([m d] & Em & Hd). cbn [fst] in Em. subst m. destruct (HA n d Hd) as (_ & _ & _ & (_ & B & _)).
        destruct (B p x) as (t2 & Ht2); [rewrite <- app_assoc; exact Hx|]. exists t2. eapply at_child; eauto.
      * intros p es Hp. inversion Hp as [|? n d q ? Hin Hq]; subst; [rewrite app_nil_r; exact E|].
        destruct (HA n d Hin) as (c & _ & _ & (_ & _ & C)). specialize (C q es Hq). rewrite <- app_assoc in C. exact C.
Qed.

(** ** Two images of the same contents *)
Lemma same_plain t t' : same_tree t t' -> plain t -> plain t'.
Proof.
  intros Hs HP p ds Hat n Hn. destruct (P_Repack.same_at_back _ _ _ Hat _ Hs) as (a & A & B). destruct (same_dir_r _ _ B) as (cs & ->).
  apply (HP p cs A). apply same_fsts in B. eapply Permutation_in; [symmetry; exact B|exact Hn].
Qed.
Lemma unix_plain t : unix_tree t -> plain t.
Proof. intros HU p cs Hat n Hn. apply (HU p cs Hat n Hn). Qed.

Lemma sums_agree H m dup cwd pk w a b fa fb t t' : is_file w cwd a fa -> is_file w cwd b fb -> is_image fa t -> is_image fb t' -> plain t -> same_tree t t' ->
  exists h, returns (fun fuel => main H m fuel dup cwd pk (Core (inl (Checksum [a; b]))) w) (mkProcess w [h ++ [9] ++ a; h ++ [9] ++ b] None (Some 0)).
Proof.
  intros A B IA IB HP Hs. destruct (c133_checksum_lemma H m dup cwd pk w [(a, fa); (b, fb)] [t; t']) as (ss & HF & R).
  - repeat constructor; assumption.
  - repeat constructor; auto. eapply same_plain; eauto.
  - inversion HF as [|? s ? ss1 F1 HF1]; subst. inversion HF1 as [|? s' ? ss2 F2 HF2]; subst. inversion HF2; subst.
    rewrite <- (fingerprint_same _ _ _ _ Hs F1 F2) in R. exists (hex_text (H (stream s))). exact R.
Qed.

Lemma pack_process H m dup cwd ls src i w w' o : returns (fun fuel => cmd_pack cwd (std_packer ls fuel m) src i w) (w', o) ->
  returns (fun fuel => main H m fuel dup cwd (std_packer ls fuel m) (Core (inl (Pack src i))) w) (finish_with false ((w', []), map_err UHost o)).
Proof.
  intros (n & R). exists n. intros k Hk. cbn [main run_command]. unfold hosted, quietly, uhost. rewrite (R k Hk). reflexivity.
Qed.

Lemma c141_repack_lemma H m dup ls cwd src i w p file d v t : canonicalize (w_fs w) cwd src = Ok p -> w_fs w p = Some (HFile file) ->
  open_image file = Ok d -> read_volume d = Ok v -> contains d t (v_root v) -> tidy d (v_root v) -> source t -> latin_tree t -> plain t ->
  ready_for_file cwd i w -> place cwd i <> p ->
  exists w' told st, returns (fun fuel => main H m fuel dup cwd (std_packer ls fuel m) (Core (inl (Pack src (Some i)))) w) (mkProcess w' [] told st)
   /\ (st = Some 0 \/ st = Some 1)
   /\ (st = Some 0 -> forall pk, exists h, returns (fun fuel => main H m fuel dup cwd pk (Core (inl (Checksum [src; i]))) w') (mkProcess w' [h ++ [9] ++ src; h ++ [9] ++ i] None (Some 0))).
Proof.
  intros Hc Hf Ho Hv HC HT HS HL HP HW Hne.
  assert (HI : is_image file t) by (exists d, (v_root v); split; [exact Ho|]; split; [exists v; auto|]; split; [apply HS|exact HC]).
  assert (K : exists t', same_tree t t' /\ scans d t' (v_root v)).
  { destruct (open_image_base _ _ Ho) as (base & _ & ->). apply tidy_scans; auto.
    - apply offset_lawful, file_lawful.
    - intros o n. unfold offset_dev. apply file_real.
    - intros off b0 H0. unfold offset_dev in H0. pose proof (file_supplies _ _ _ H0) as K. intros k n Hi Hn. unfold offset_dev. replace (off + k + base) with (off + base + k) by lia. apply K; auto. }
  destruct K as (t' & T1 & T2).
  destruct (c100_lemma m ls cwd src i w p file d v t' Hc Hf Ho Hv T2 (same_source _ _ T1 HS) (same_latin _ _ T1 HL) HW Hne) as (w' & o & img & R & F1 & F2 & Hcase).
  apply (pack_process H m dup) in R. destruct Hcase as [(_ & -> & HPk)|(_ & ->)]; cbn [map_err finish_with] in R.
  - exists w', None, (Some 0). split; [exact R|]. split; [left; reflexivity|]. intros _ pk.
    assert (HO : only_file (place cwd i) (w_fs w) (w_fs w')).
    { split; [exact F2|]. split; [|exists img; exact F1]. destruct HW as (_ & _ & _ & _ & _ & dir & n & E & _ & K). rewrite E. exact K. }
    eapply sums_agree with (t := t) (t' := t'); eauto.
    + exists p. split; [eapply canonicalize_mono; eauto|]. rewrite F2 by auto. exact Hf.
    + exists (place cwd i). split; [eapply ready_canonical; eauto|exact F1].
    + eapply packed_is_image; [|exact HPk]. eapply same_source; eauto.
  - exists w', (Some (UHost HPack)), (Some 1). split; [exact R|]. split; [right; reflexivity|discriminate].
Qed.

(** ** Unpacking and packing again *)
Lemma place_found h cwd s : rooted h -> no_dotdot s -> ~ In 0 s -> s <> [] -> h (place cwd s) = Some HDir -> canonicalize h cwd s = Ok (place cwd s).
Proof.
  intros HR Hd Hn Hs Hh. assert (Hnul : has_nul (pcomps s) = false) by (apply no_nul; auto). unfold canonicalize. rewrite Hnul. destruct s as [|c0 s0]; [congruence|]. set (s := c0 :: s0) in *. unfold place in *.
  destruct (split_last_case (pcomps s)) as [(E & _)|(j & c & E & _)].
  - unfold hlocate. rewrite E. cbn [split_last bind]. rewrite app_nil_r. reflexivity.
  - rewrite E in *. rewrite hlocate_dirs.
    + cbn [bind]. rewrite <- app_assoc, Hh. reflexivity.
    + unfold no_dotdot in Hd. rewrite E in Hd. exact Hd.
    + apply rooted_dirs_on; auto. rewrite app_assoc in Hh. destruct HR as (_ & HR). apply (HR _ c). rewrite Hh. discriminate.
Qed.

Lemma c141_unpack_lemma H m dup cwd s dest i w ip file t : Forall unix_name cwd -> canonicalize (w_fs w) cwd s = Ok ip -> w_fs w ip = Some (HFile file) -> is_image file t -> unix_tree t -> source t ->
  ready_for cwd dest t w -> dest <> [] -> ready_for_file cwd i w -> apart (place cwd i) (place cwd dest) -> place cwd i <> ip ->
  exists w1, (forall pk, returns (fun fuel => main H m fuel dup cwd pk (Core (inl (Unpack s (Some dest)))) w) (mkProcess w1 [] None (Some 0)))
   /\ forall ls, lists_host (w_fs w1) ls ->
      exists w2 told st, returns (fun fuel => main H m fuel dup cwd (std_packer ls fuel m) (Core (inl (Pack dest (Some i)))) w1) (mkProcess w2 [] told st)
      /\ (st = Some 0 \/ st = Some 1)
      /\ (st = Some 0 -> forall pk, exists h, returns (fun fuel => main H m fuel dup cwd pk (Core (inl (Checksum [s; i]))) w2) (mkProcess w2 [h ++ [9] ++ s; h ++ [9] ++ i] None (Some 0))).
Proof.
  intros Hcwd Hc Hf HI HU HS HD Hdn HW (C1 & C2) Hne.
  destruct (c116_packed_lemma dup cwd s dest w ip file t Hc Hf HI HU HD) as (w1 & (n1 & R1) & HG & Hf1).
  assert (L1 : w_left w1 = None) by (eapply honest_left; [apply (honest_unpack_dup n1 dup cwd s (Some dest))|apply HD|apply R1; lia]).
  exists w1. split.
  - intros pk. exists n1. intros k Hk. cbn [main run_command]. unfold quietly. rewrite (R1 k Hk). reflexivity.
  - intros ls Hls. destruct HD as (D1 & D2 & D3 & D4 & D5 & (D6 & D7) & D8).
    assert (HR1 : rooted (w_fs w1)) by (eapply restored_rooted; [exact D2|exact HG]). destruct HG as (G1 & G2 & G3 & G4).
    destruct (ordered_tree (w_fs w1) ls t (place cwd dest) Hls (proj1 (proj2 HS))) as (t' & T1 & T2); [intros q t0 Hq; destruct (G1 q t0 Hq) as (x & -> & ->); reflexivity|exact G2|].
    assert (Hloc : w_fs w1 (place cwd dest) = Some HDir) by (apply G3; exists []; rewrite app_nil_r; reflexivity).
    assert (Hcd : canonicalize (w_fs w1) cwd dest = Ok (place cwd dest)) by (apply place_found; auto).
    assert (HW1 : ready_for_file cwd i w1).
    { destruct HW as (W1 & W2 & W3 & W4 & W5 & dir & n & W6 & W7 & W8). unfold ready_for_file. ssplit; auto. exists dir, n. split; [exact W6|].
      assert (Kb : forall q, leads_to q (place cwd i) -> ~ strictly_below (place cwd dest) q).
      { intros q Hq Hb. apply C2. eapply leads_trans; [apply below_leads; exact Hb|exact Hq]. }
      split.
      - destruct (leads_dec dir (place cwd dest)) as [Hl|Hl]; [apply G3; exact Hl|]. rewrite G4; auto. apply Kb. rewrite W6. apply leads_app.
      - rewrite <- W6. rewrite G4; [rewrite W6; exact W8| |].
        + apply Kb. exists []. rewrite app_nil_r. reflexivity.
        + exact C1. }
    destruct (c77_lemma m ls cwd dest (Some i) i w1 (place cwd dest) t' Hcwd Hcd T2 (same_source _ _ T1 HS) (or_introl eq_refl) HW1 C2) as (w2 & o & img & R2 & L2 & F1 & F2 & Hcase).
    apply (pack_process H m dup) in R2. destruct Hcase as [(_ & -> & HPk)|(_ & ->)]; cbn [map_err finish_with] in R2.
    + exists w2, None, (Some 0). split; [exact R2|]. split; [left; reflexivity|]. intros _ pk.
      assert (Hc1 : canonicalize (w_fs w1) cwd s = Ok ip).
      { eapply canonicalize_more; [|exact Hc|intros b' Hb'; exists file; exact Hf1]. intros q Hq. destruct (leads_dec q (place cwd dest)) as [Hl|Hl]; [apply G3; exact Hl|].
        destruct (leads_dec (place cwd dest) q) as [Hb|Hb]; [|rewrite G4; auto; intros Hb'; apply Hb, below_leads, Hb'].
        destruct Hb as ([|n x] & ->); [rewrite app_nil_r; exact Hloc|]. rewrite D7 in Hq; [discriminate|]. exists n, x. reflexivity. }
      eapply sums_agree with (t := t) (t' := t'); eauto.
      * exists ip. split; [|rewrite F2 by auto; exact Hf1]. apply (canonicalize_mono (place cwd i) (w_fs w1)); [|exact Hc1|auto].
        split; [exact F2|]. split; [|exists img; exact F1]. destruct HW1 as (_ & _ & _ & _ & _ & dir & n & E & _ & K). rewrite E. exact K.
      * exists (place cwd i). split; [exact (ready_canonical cwd i w1 (w_fs w2) img HW1 F2 F1)|exact F1].
      * eapply packed_is_image; [|exact HPk]. eapply same_source; eauto.
      * apply unix_plain, HU.
    + exists w2, (Some (UHost HPack)), (Some 1). split; [exact R2|]. split; [right; reflexivity|discriminate].
Qed.

(** ** Rewriting in place *)
Lemma rewritten_std m ls cwd x w p q file d v t : Forall unix_name cwd -> w_left w = None -> rooted (w_fs w) -> canonicalize (w_fs w) cwd x = Ok p -> w_fs w p = Some (HFile file) ->
  moved_to p q -> p <> q -> w_fs w q <> Some HDir ->
  open_image file = Ok d -> read_volume d = Ok v -> scans d t (v_root v) -> source t -> latin_tree t ->
  exists img o w', returns (fun fuel => exiso_repack cwd (std_packer ls fuel m) None false [x] w) (w', o)
   /\ w_fs w' p = Some (HFile img) /\ (forall z, w_fs w z = Some HDir -> w_fs w' z = Some HDir)
   /\ (representable m t /\ o = Ok tt /\ packs m t img \/ ~ representable m t /\ o = Err HPack).
Proof.
  intros Hcwd HL HR Hc Hb Hm Hpq Hq Ho Hv Hs HS HLt. set (h1 := hset (hunset (w_fs w) p) q (HFile file)).
  assert (E : hset h1 p (HFile []) q = Some (HFile file)) by (rewrite hset_neq by auto; apply hset_eq).
  destruct (any_image_run m file d v t (hset h1 p (HFile [])) q) as (img & o & (k & H2) & H3); auto.
  exists img, o, (mkWorld (hset (hset h1 p (HFile [])) p (HFile img)) None). cbn [w_fs]. ssplit; auto.
  - exists k. intros fuel Hf. rewrite (rewrite_run cwd _ x w p q file) by auto. fold h1. unfold packed_to, std_packer. rewrite E. rewrite (H2 fuel Hf). reflexivity.
  - apply hset_eq.
  - intros z Hz. assert (z <> p) by congruence. assert (z <> q) by congruence. rewrite !hset_neq by auto. unfold h1. rewrite hset_neq by auto. unfold hunset. destruct (hpath_eqb_spec z p); [congruence|exact Hz].
Qed.
Lemma sum_of H m dup cwd pk w a fa t : is_file w cwd a fa -> is_image fa t -> plain t ->
  exists s, fingerprint t s /\ returns (fun fuel => main H m fuel dup cwd pk (Core (inl (Checksum [a]))) w) (mkProcess w [hex_text (H (stream s)) ++ [9] ++ a] None (Some 0)).
Proof.
  intros A IA HP. destruct (c133_checksum_lemma H m dup cwd pk w [(a, fa)] [t]) as (ss & HF & R); [repeat constructor; assumption|repeat constructor; auto|].
  inversion HF as [|? s ? ss1 F1 HF1]; subst. inversion HF1; subst. exists s. split; [exact F1|exact R].
Qed.
Lemma c141_rewrite_lemma H m dup ls cwd x w p q file d v t qe qa : Forall unix_name cwd -> w_left w = None -> rooted (w_fs w) -> canonicalize (w_fs w) cwd x = Ok p -> w_fs w p = Some (HFile file) ->
  moved_to p q -> p <> q -> w_fs w q <> Some HDir ->
  open_image file = Ok d -> read_volume d = Ok v -> contains d t (v_root v) -> tidy d (v_root v) -> source t -> latin_tree t -> plain t ->
  exists w' told st, returns (fun fuel => main H m fuel dup cwd (std_packer ls fuel m) (Exiso (mkEx None false qe qa (ModeR [x]))) w) (mkProcess w' [] told st)
   /\ (st = Some 0 \/ st = Some 1)
   /\ (st = Some 0 -> forall pk, exists h, returns (fun fuel => main H m fuel dup cwd pk (Core (inl (Checksum [x]))) w) (mkProcess w [h ++ [9] ++ x] None (Some 0))
        /\ returns (fun fuel => main H m fuel dup cwd pk (Core (inl (Checksum [x]))) w') (mkProcess w' [h ++ [9] ++ x] None (Some 0))).
Proof.
  intros Hcwd HLf HR Hc Hf Hm Hpq Hq Ho Hv HC HT HS HL HP.
  assert (HI : is_image file t) by (exists d, (v_root v); split; [exact Ho|]; split; [exists v; auto|]; split; [apply HS|exact HC]).
  assert (K : exists t', same_tree t t' /\ scans d t' (v_root v)).
  { destruct (open_image_base _ _ Ho) as (base & _ & ->). apply tidy_scans; auto.
    - apply offset_lawful, file_lawful.
    - intros o n. unfold offset_dev. apply file_real.
    - intros off b0 H0. unfold offset_dev in H0. pose proof (file_supplies _ _ _ H0) as K. intros k n Hi Hn. unfold offset_dev. replace (off + k + base) with (off + base + k) by lia. apply K; auto. }
  destruct K as (t' & T1 & T2).
  destruct (rewritten_std m ls cwd x w p q file d v t' Hcwd HLf HR Hc Hf Hm Hpq Hq Ho Hv T2 (same_source _ _ T1 HS) (same_latin _ _ T1 HL)) as (img & o & w' & (n & R) & F1 & F2 & Hcase).
  assert (RM : returns (fun fuel => main H m fuel dup cwd (std_packer ls fuel m) (Exiso (mkEx None false qe qa (ModeR [x]))) w) (finish_with (qe || qa) ((w', []), map_err UHost o))).
  { exists n. intros k Hk. cbn [main]. unfold run_exiso_program, run_exiso_command. cbn [x_mode x_quiet_error x_quiet_all x_directory x_delete]. unfold hosted, quietly, uhost. rewrite (R k Hk). reflexivity. }
  destruct Hcase as [(_ & -> & HPk)|(_ & ->)]; cbn [map_err finish_with] in RM.
  - exists w', None, (Some 0). split; [exact RM|]. split; [left; reflexivity|]. intros _ pk.
    assert (I1 : is_file w cwd x file) by (exists p; auto).
    assert (I2 : is_file w' cwd x img) by (exists p; split; [|exact F1]; eapply canonicalize_more; [exact F2|exact Hc|eauto]).
    destruct (sum_of H m dup cwd pk w x file t I1 HI HP) as (s & S1 & S2).
    destruct (sum_of H m dup cwd pk w' x img t' I2) as (s' & S3 & S4); [eapply packed_is_image; [|exact HPk]; eapply same_source; eauto|eapply same_plain; eauto|].
    rewrite <- (fingerprint_same _ _ _ _ T1 S1 S3) in S4. eauto.
  - exists w', (if qe || qa then None else Some (UHost HPack))%bool, (Some 1). split; [exact RM|]. split; [right; reflexivity|discriminate].
Qed.
