(** Checksums. *)
From Verif Require Import M_Base M_Util M_Layout M_Read M_Img M_Check.
From Verif Require Import S_Avl S_Codec S_Table S_Read S_Img S_Check.
From Verif Require Import P_Base P_Layout P_Codec P_Read P_Path P_Find P_Tree P_Back P_Packed P_More P_Order P_Xfs P_Witness.
From Coq Require Import Init.Byte Permutation Sorted Lia.
Local Open Scope N_scope.

(** ** Contents *)
Lemma contains_dir_inv d cs r : contains d (FDir cs) r ->
  cs = [] /\ r_size r = 0 \/
  exists T es, directory d r T /\ Permutation es (inorder T) /\
    Forall2 (fun c e => name_str e = fst c /\ is_dir e = is_fdir (snd c) /\ contains d (snd c) (region_of e)) cs es.
Proof. intros H. inversion H; subst; eauto 8. Qed.

Lemma holds_contains d t : forall r, holds d t r -> contains d t r.
Proof.
  induction t as [b|cs IH] using ftree_rect'; intros r Hh.
  - inversion Hh; subst. apply ct_file; auto.
  - apply holds_dir_inv in Hh as (T & es & HD & HP & HF). apply (ct_dir d cs r T es); auto.
    clear HD HP T. induction HF as [|c e cs es (E1 & E2 & E3) HF IHF]; [apply Forall2_nil|]. inversion IH; subst. apply Forall2_cons; auto.
Qed.

Lemma sorted_names_nodup d r T : directory d r T -> NoDup (map name_str (inorder T)).
Proof.
  intros (_ & HS). unfold strictly_sorted in HS. induction HS as [|e es HS IH HF]; [constructor|]. cbn [map]. constructor; auto.
  rewrite in_map_iff. intros (e' & E & Hin). rewrite Forall_forall in HF. specialize (HF _ Hin). rewrite E in HF.
  rewrite (proj2 (same_name_iff (name_str e) (name_str e)) eq_refl) in HF. discriminate.
Qed.

Lemma children_names (Q : (str * ftree) -> dentry -> Prop) cs es : Forall2 (fun c e => name_str e = fst c /\ Q c e) cs es -> map name_str es = map fst cs.
Proof. induction 1 as [|c e cs es (E & _) HF IH]; cbn [map]; congruence. Qed.

Lemma contains_proper d t : forall r, contains d t r -> proper t.
Proof.
  induction t as [b|cs IH] using ftree_rect'; intros r Hc; [apply every_dir_file|].
  apply contains_dir_inv in Hc as [(-> & _)|(T & es & HD & HP & HF)]; [apply every_dir_node; constructor|].
  apply every_dir_node.
  - rewrite <- (children_names _ _ _ HF). eapply Permutation_NoDup; [apply Permutation_map; apply Permutation_sym; exact HP|]. eapply sorted_names_nodup; eauto.
  - clear HD HP. induction HF as [|c e cs es (E1 & E2 & E3) HF IHF]; [constructor|]. inversion IH as [|? ? I1 I2]; subst. constructor; [eapply I1; exact E3|apply IHF; exact I2].
Qed.

Lemma nodup_fst {A B} (l : list (A * B)) a b b' : NoDup (map fst l) -> In (a, b) l -> In (a, b') l -> b = b'.
Proof.
  induction l as [|[x y] l IH]; cbn [map fst In]; intros HN H1 H2; [destruct H1|]. inversion HN as [|? ? HN1 HN2]; subst.
  destruct H1 as [H1|H1], H2 as [H2|H2]; [congruence| | |eauto].
  - injection H1 as -> ->. exfalso. apply HN1. apply in_map_iff. exists (a, b'). auto.
  - injection H2 as -> ->. exfalso. apply HN1. apply in_map_iff. exists (a, b). auto.
Qed.

Lemma slashed_cons n p : slashed (n :: p) = 47 :: n ++ slashed p.
Proof. reflexivity. Qed.
Lemma slashed_app p q : slashed (p ++ q) = slashed p ++ slashed q.
Proof. unfold slashed. rewrite map_app, concat_app. reflexivity. Qed.

(** ** Listings by path *)
Section Listing.
Variable d : dev.

Definition entry_is (e : dentry) (t : ftree) : Prop := is_dir e = is_fdir t /\ contains d t (region_of e).

Definition lists (p : str) (t : ftree) (l : list (str * dentry)) : Prop :=
  (forall q e, In (q, e) l -> exists qs t', at_path t (qs ++ [name_str e]) t' /\ q = p ++ slashed qs /\ entry_is e t')
  /\ forall qs n t', at_path t (qs ++ [n]) t' -> exists e, In (p ++ slashed qs, e) l /\ name_str e = n /\ entry_is e t'.

Lemma sub_exists p (P : dentry -> list (str * dentry) -> Prop) es :
  (forall e, In e es -> is_dir e = true -> exists l, tree_listing d (p ++ [47] ++ name_str e) (region_of e) l /\ P e l) ->
  exists l, sub_listing d p es l
    /\ (forall x, In x l -> exists e l0, In e es /\ is_dir e = true /\ P e l0 /\ In x l0)
    /\ (forall e, In e es -> is_dir e = true -> exists l0, P e l0 /\ incl l0 l).
Proof.
  induction es as [|e es IH]; intros H.
  - exists []. split; [constructor|]. split; intros ? [].
  - destruct IH as (l & H1 & H2 & H3); [intros e' He'; apply H; right; auto|]. destruct (is_dir e) eqn:Ed.
    + destruct (H e (or_introl eq_refl) Ed) as (l0 & H0 & H0'). exists (l0 ++ l). split; [eapply sl_dir; eauto|]. split.
      * intros x Hx. apply in_app_iff in Hx as [Hx|Hx]; [exists e, l0; cbn; auto|]. destruct (H2 x Hx) as (e' & l' & A & B & C & D). exists e', l'. cbn. auto.
      * intros e' [<-|He'] Ed'; [exists l0; split; auto; intros x Hx; apply in_app_iff; auto|].
        destruct (H3 e' He' Ed') as (l' & A & B). exists l'. split; auto. intros x Hx. apply in_app_iff. auto.
    + exists l. split; [apply sl_file; auto|]. split.
      * intros x Hx. destruct (H2 x Hx) as (e' & l' & A & B & C & D). exists e', l'. cbn. auto.
      * intros e' [<-|He'] Ed'; [congruence|]. auto.
Qed.

Lemma contains_listing t : forall p r, is_fdir t = true -> contains d t r -> exists l, tree_listing d p r l /\ lists p t l.
Proof.
  induction t as [b|cs IH] using ftree_rect'; intros p r Ht Hc; [discriminate|].
  pose proof (contains_proper _ _ _ Hc) as HPr.
  apply contains_dir_inv in Hc as [(-> & HZ)|(T & es & HD & HP & HF)].
  { exists []. split; [constructor; auto|]. split; [intros q e []|]. intros [|q qs] n t' H; inversion H as [|? ? ? ? ? Hin]; subst; destruct Hin. }
  assert (Hnd : NoDup (map fst cs)) by (apply (HPr [] cs); constructor).
  set (P := fun e l0 => exists c, In c cs /\ name_str e = fst c /\ is_fdir (snd c) = true /\ lists (p ++ [47] ++ name_str e) (snd c) l0).
  assert (Hpair : forall e, In e es -> exists c, In c cs /\ name_str e = fst c /\ entry_is e (snd c)).
  { clear -HF. induction HF as [|c e cs es (E1 & E2) HF IHF]; intros e' He'; [destruct He'|]. destruct He' as [<-|He'].
    - exists c. split; [left; auto|]. split; auto.
    - destruct (IHF e' He') as (c' & A & B). exists c'. split; [right; auto|auto]. }
  assert (Hback : forall c, In c cs -> exists e, In e es /\ name_str e = fst c /\ entry_is e (snd c)).
  { clear -HF. induction HF as [|c e cs es (E1 & E2) HF IHF]; intros c' Hc'; [destruct Hc'|]. destruct Hc' as [<-|Hc'].
    - exists e. split; [left; auto|]. split; auto.
    - destruct (IHF c' Hc') as (e' & A & B). exists e'. split; [right; auto|auto]. }
  destruct (sub_exists p P (inorder T)) as (l & L1 & L2 & L3).
  { intros e He Hd. assert (He' : In e es) by (eapply Permutation_in; [apply Permutation_sym; exact HP|exact He]).
    destruct (Hpair e He') as (c & C1 & C2 & C3 & C4). rewrite Forall_forall in IH. rewrite Hd in C3. symmetry in C3.
    destruct (IH c C1 (p ++ [47] ++ name_str e) (region_of e) C3 C4) as (l & A & B). exists l. split; auto. exists c. auto. }
  exists (map (fun e => (p, e)) (inorder T) ++ l). split; [apply (tl_dir d p r T l); auto|]. split.
  - intros q e Hin. apply in_app_iff in Hin as [Hin|Hin].
    + apply in_map_iff in Hin as (e0 & [= <- <-] & Hin).
      assert (He' : In e0 es) by (eapply Permutation_in; [apply Permutation_sym; exact HP|exact Hin]).
      destruct (Hpair e0 He') as ([n t] & C1 & C2 & C3). cbn [fst snd] in *. exists [], t. split; [|split; [rewrite app_nil_r; auto|auto]].
      cbn [app]. rewrite C2. eapply at_child; [exact C1|constructor].
    + destruct (L2 _ Hin) as (e0 & l0 & A & B & ([n t] & C1 & C2 & C3 & (C4 & _)) & D). cbn [fst snd] in *.
      destruct (C4 q e D) as (qs & t' & D1 & D2 & D3). exists (n :: qs), t'. split; [|split; auto].
      * cbn [app]. eapply at_child; eauto.
      * rewrite D2, C2, slashed_cons, <- !app_assoc. cbn [app]. reflexivity.
  - intros qs n t' Hat. destruct qs as [|n0 qs].
    + inversion Hat as [|? ? t0 ? ? Hin H0]; subst. inversion H0; subst. destruct (Hback _ Hin) as (e & A & B & C). cbn [fst snd] in *.
      exists e. split; [|auto]. cbn. rewrite app_nil_r. apply in_app_iff. left. apply in_map_iff. exists e. split; auto.
      eapply Permutation_in; eauto.
    + cbn [app] in Hat. inversion Hat as [|? ? t0 ? ? Hin H0]; subst. destruct (Hback _ Hin) as (e & A & B & C & D). cbn [fst snd] in *.
      assert (Hd : is_fdir t0 = true) by (destruct t0; [inversion H0; destruct qs; discriminate|reflexivity]).
      rewrite Hd in C. destruct (L3 e) as (l0 & ([n1 t1] & C1 & C2 & C3 & (_ & C4)) & E); auto; [eapply Permutation_in; eauto|]. cbn [fst snd] in *.
      assert (X : (n1, t1) = (n0, t0)).
      { rewrite B in C2. subst n1. f_equal. eapply nodup_fst; eauto. }
      injection X as -> ->. destruct (C4 qs n t' H0) as (e' & E1 & E2). exists e'. split; auto.
      rewrite slashed_cons. apply E in E1. apply in_app_iff. right. rewrite B, <- !app_assoc in E1. exact E1.
Qed.
End Listing.

(** ** UTF-8 *)
Lemma nat_below (P : N -> bool) n : forallb P (map N.of_nat (seq 0 n)) = true -> forall x, x < N.of_nat n -> P x = true.
Proof.
  intros H x Hx. rewrite forallb_forall in H. apply H. apply in_map_iff. exists (N.to_nat x). split; [lia|]. apply in_seq. lia.
Qed.
Lemma tag1 x : x < 64 -> N.lor (N.land x 0x3F) 0x80 = 0x80 + x.
Proof. intros Hx. apply N.eqb_eq. revert x Hx. apply (nat_below (fun x => _ =? _) 64). vm_compute. reflexivity. Qed.
Lemma tag2 x : x < 32 -> N.lor (N.land x 0x1F) 0xC0 = 0xC0 + x.
Proof. intros Hx. apply N.eqb_eq. revert x Hx. apply (nat_below (fun x => _ =? _) 32). vm_compute. reflexivity. Qed.
Lemma tag3 x : x < 16 -> N.lor (N.land x 0x0F) 0xE0 = 0xE0 + x.
Proof. intros Hx. apply N.eqb_eq. revert x Hx. apply (nat_below (fun x => _ =? _) 16). vm_compute. reflexivity. Qed.
Lemma tag4 x : x < 8 -> N.lor (N.land x 0x07) 0xF0 = 0xF0 + x.
Proof. intros Hx. apply N.eqb_eq. revert x Hx. apply (nat_below (fun x => _ =? _) 8). vm_compute. reflexivity. Qed.
Lemma cont_byte x : N.lor (N.land x 0x3F) 0x80 = 0x80 + x mod 64.
Proof.
  rewrite <- (tag1 (x mod 64)) by (apply N.mod_lt; discriminate). f_equal.
  change 0x3F with (N.ones 6). rewrite !N.land_ones. change (2 ^ 6) with 64. symmetry. apply N.mod_mod. discriminate.
Qed.

Lemma encode_utf8_spec c : c < 0x110000 -> encode_utf8 c = utf8 c.
Proof.
  intros Hc. unfold encode_utf8, utf8. destruct (N.ltb_spec c 0x80); [reflexivity|]. destruct (N.ltb_spec c 0x800).
  { rewrite cont_byte, N.shiftr_div_pow2. change (2 ^ 6) with 64. rewrite tag2; [reflexivity|]. apply N.div_lt_upper_bound; lia. }
  destruct (N.ltb_spec c 0x10000).
  { rewrite !cont_byte, !N.shiftr_div_pow2. change (2 ^ 6) with 64. change (2 ^ 12) with 4096. rewrite tag3; [reflexivity|]. apply N.div_lt_upper_bound; lia. }
  rewrite !cont_byte, !N.shiftr_div_pow2. change (2 ^ 6) with 64. change (2 ^ 12) with 4096. change (2 ^ 18) with 262144.
  rewrite tag4; [reflexivity|]. apply N.div_lt_upper_bound; lia.
Qed.
Lemma as_bytes_spec s : Forall scalar s -> as_bytes s = map n2b (utf8_str s).
Proof.
  intros H. unfold as_bytes, utf8_str. f_equal. induction H as [|c s Hc Hs IH]; [reflexivity|]. cbn [map concat]. rewrite IH, encode_utf8_spec by exact Hc. reflexivity.
Qed.
Lemma decode_scalar b : scalar (decode_byte b).
Proof. unfold scalar. destruct b; reflexivity. Qed.
Lemma name_scalar e : Forall scalar (name_str e).
Proof. unfold name_str, decode_1252. rewrite Forall_map, Forall_forall. intros b _. apply decode_scalar. Qed.
Lemma slashed_scalar p : Forall (Forall scalar) p -> Forall scalar (slashed p).
Proof. induction 1 as [|n p Hn Hp IH]; [constructor|]. rewrite slashed_cons. constructor; [reflexivity|]. apply Forall_app. auto. Qed.

Lemma contains_scalar d t : forall r, contains d t r -> every_dir (fun cs => Forall (Forall scalar) (map fst cs)) t.
Proof.
  induction t as [b|cs IH] using ftree_rect'; intros r Hc; [apply every_dir_file|].
  apply contains_dir_inv in Hc as [(-> & _)|(T & es & HD & HP & HF)]; [apply every_dir_node; constructor|].
  apply every_dir_node.
  - rewrite <- (children_names _ _ _ HF). rewrite Forall_map, Forall_forall. intros e _. apply name_scalar.
  - clear HD HP. induction HF as [|c e cs es (E1 & E2 & E3) HF IHF]; [constructor|]. inversion IH as [|? ? I1 I2]; subst. constructor; [eapply I1; exact E3|apply IHF; exact I2].
Qed.
Lemma every_path (Q : str -> Prop) t p t' : every_dir (fun cs => Forall Q (map fst cs)) t -> at_path t p t' -> Forall Q p.
Proof.
  intros HE Hat. induction Hat as [t|cs n t p t' Hin Hat IH]; [constructor|]. constructor.
  - specialize (HE [] cs (at_here _)). rewrite Forall_forall in HE. apply HE. apply in_map_iff. exists (n, t). auto.
  - apply IH. intros q cs' Hq. apply (HE (n :: q)). eapply at_child; eauto.
Qed.

(** ** The sorted map *)
Definition slt (a b : str) : Prop := str_cmp a b = Lt.
Lemma str_cmp_refl a : str_cmp a a = Eq.
Proof. apply str_cmp_eq. reflexivity. Qed.

Definition ssorted {V} (m : list (str * V)) : Prop := StronglySorted (fun a b => slt (fst a) (fst b)) m.

Lemma smap_insert_spec {V} k (v : V) m : ssorted m ->
  ssorted (smap_insert k v m) /\ forall x, In x (smap_insert k v m) <-> x = (k, v) \/ (In x m /\ fst x <> k).
Proof.
  unfold ssorted. induction 1 as [|[k' v'] m HS IH HF]; cbn [smap_insert].
  - split; [constructor; constructor|]. intros x. cbn. intuition.
  - destruct IH as (IH1 & IH2). destruct (str_cmp k k') eqn:E.
    + apply str_cmp_eq in E. subst k'. split; [constructor; auto|]. intros x. cbn [In]. split.
      * intros [<-|Hx]; [left; auto|]. right. split; auto. rewrite Forall_forall in HF. specialize (HF x Hx). cbn in HF. unfold slt in HF. intros <-.
        rewrite str_cmp_refl in HF. discriminate.
      * intros [->|([<-|Hx] & Hne)]; auto. cbn in Hne. congruence.
    + split; [constructor; [constructor; auto|constructor; [exact E|]]|].
      * rewrite Forall_forall in *. intros x Hx. specialize (HF x Hx). cbn in *. unfold slt in *. eapply str_cmp_trans; eauto.
      * intros x. cbn [In]. split; [|intros [->|(Hx & _)]; auto]. intros [<-|[<-|Hx]]; auto; right; (split; [auto|]).
        -- cbn. intros <-. rewrite str_cmp_refl in E. discriminate.
        -- rewrite Forall_forall in HF. specialize (HF x Hx). cbn in HF. unfold slt in HF. intros <-.
           pose proof (str_cmp_trans _ _ _ E HF) as X. rewrite str_cmp_refl in X. discriminate.
    + split.
      * constructor; [exact IH1|]. rewrite Forall_forall in *. intros x Hx. apply IH2 in Hx as [->|(Hx & _)]; [|auto]. cbn. unfold slt.
        rewrite (str_cmp_opp k k'), E. reflexivity.
      * intros x. cbn [In]. rewrite IH2. split; [|tauto]. intros [<-|[->|(Hx & Hne)]]; auto. right. split; auto.
        cbn. intros <-. rewrite str_cmp_refl in E. discriminate.
Qed.

Definition key (x : str * dentry) : str := fst x ++ [SLASH] ++ name_str (snd x).
Lemma checksum_map_spec l : ssorted (checksum_map l)
  /\ (forall k e, In (k, e) (checksum_map l) -> exists q, In (q, e) l /\ k = key (q, e))
  /\ (forall q e, In (q, e) l -> exists e', In (key (q, e), e') (checksum_map l)).
Proof.
  unfold checksum_map. change (fun m x => smap_insert (fst x ++ [SLASH] ++ name_str (snd x)) (snd x) m)
    with (fun (m : list (str * dentry)) x => smap_insert (key x) (snd x) m).
  assert (H : forall l m, ssorted m -> let m' := fold_left (fun m x => smap_insert (key x) (snd x) m) l m in
    ssorted m' /\ (forall k e, In (k, e) m' -> In (k, e) m \/ exists q, In (q, e) l /\ k = key (q, e))
    /\ (forall k e, In (k, e) m -> exists e', In (k, e') m')
    /\ (forall q e, In (q, e) l -> exists e', In (key (q, e), e') m')).
  { clear l. induction l as [|[q0 e0] l IH]; intros m Hm; cbv zeta; cbn [fold_left].
    - split; auto. split; auto. split; [eauto|]. intros q e [].
    - destruct (smap_insert_spec (key (q0, e0)) e0 m Hm) as (S1 & S2). cbn [snd]. destruct (IH _ S1) as (A & B & C & D). cbv zeta in *.
      split; auto. split; [|split].
      + intros k e Hx. apply B in Hx as [Hx|(q & Hx & E)]; [|right; exists q; cbn; auto].
        apply S2 in Hx as [Hx|(Hx & _)]; auto. injection Hx as -> ->. right. exists q0. cbn. auto.
      + intros k e Hx. destruct (list_eq_dec N.eq_dec k (key (q0, e0))) as [->|Hne].
        * apply (C (key (q0, e0)) e0). apply S2. auto.
        * apply (C k e). apply S2. right. split; auto.
      + intros q e [[= -> ->]|Hin]; [|auto]. apply (C _ e). apply S2. auto. }
  destruct (H l [] (SSorted_nil _)) as (A & B & C & D). cbv zeta in *. split; auto. split; auto.
  intros k e Hx. apply B in Hx as [[]|Hx]; auto.
Qed.

(** ** Paths *)
Definition opens (s : str) : Prop := s = [] \/ exists s', s = 47 :: s'.
Lemma slashed_opens p : opens (slashed p).
Proof. destruct p; [left; reflexivity|right; rewrite slashed_cons; eauto]. Qed.
Lemma piece_inj n : forall n' a b, ~ In 47 n -> ~ In 47 n' -> opens a -> opens b -> n ++ a = n' ++ b -> n = n' /\ a = b.
Proof.
  induction n as [|c n IH]; intros [|c' n'] a b H1 H2 Ha Hb E; cbn [app] in E.
  - auto.
  - exfalso. subst a. destruct Ha as [Ha|(s & Ha)]; [discriminate|]. injection Ha as -> _. apply H2. left. reflexivity.
  - exfalso. subst b. destruct Hb as [Hb|(s & Hb)]; [discriminate|]. injection Hb as -> _. apply H1. left. reflexivity.
  - injection E as <- E. destruct (IH n' a b) as (-> & ->); auto; [intros X; apply H1; right; auto|intros X; apply H2; right; auto].
Qed.
Lemma slashed_inj p : forall p', Forall (fun n => ~ In 47 n) p -> Forall (fun n => ~ In 47 n) p' -> slashed p = slashed p' -> p = p'.
Proof.
  induction p as [|n p IH]; intros [|n' p'] H1 H2 E; auto; try discriminate. inversion H1; subst. inversion H2; subst. rewrite !slashed_cons in E. injection E as E.
  destruct (piece_inj n n' (slashed p) (slashed p')) as (-> & E'); auto using slashed_opens. f_equal. auto.
Qed.
Lemma plain_path t p t' : plain t -> at_path t p t' -> Forall (fun n => ~ In 47 n) p.
Proof. intros HP. apply every_path. intros q cs Hq. rewrite Forall_forall. apply (HP q cs Hq). Qed.

Lemma read_contained d e b : contains d (FFile b) (region_of e) -> r_size (region_of e) = len b /\ read_data_all d (d_dirent (e_node e)) = Ok b.
Proof. intros H. apply read_held. inversion H; subst. apply holds_file; auto. Qed.

Lemma is_dir_directory e : is_directory (d_dirent (e_node e)) = is_dir e.
Proof. reflexivity. Qed.

(** ** The hashed bytes *)
Lemma checksum_fold d m : forall h, Forall (fun x : str * dentry => Forall scalar (fst x) /\ exists t, entry_is d (snd x) t) m ->
  exists s, Forall2 (fun (x : str * dentry) (y : str * option (list byte)) => fst y = fst x /\ exists t, entry_is d (snd x) t /\ snd y = content t) m s
    /\ foldM (checksum_step d) h m = Ok (h ++ stream s).
Proof.
  induction m as [|[k e] m IH]; intros h HF.
  - exists []. split; [constructor|]. cbn. rewrite app_nil_r. reflexivity.
  - inversion HF as [|? ? (H1 & t & H2 & H3) HF']; subst. cbn [fst snd] in *. cbn [foldM]. unfold checksum_step at 1. cbn [fst snd].
    rewrite is_dir_directory, H2, as_bytes_spec by auto. destruct t as [b|cs]; cbn [is_fdir].
    + destruct (read_contained d e b H3) as (_ & ->). cbn [bind]. destruct (IH ((h ++ map n2b (utf8_str k)) ++ b) HF') as (s & S1 & S2).
      exists ((k, Some b) :: s). split; [constructor; auto; cbn [fst snd]; split; auto; exists (FFile b); split; [split; auto|reflexivity]|].
      rewrite S2. unfold stream. cbn [map concat fst snd]. rewrite <- !app_assoc. reflexivity.
    + cbn [bind]. destruct (IH (h ++ map n2b (utf8_str k)) HF') as (s & S1 & S2).
      exists ((k, None) :: s). split; [constructor; auto; cbn [fst snd]; split; auto; exists (FDir cs); split; [split; auto|reflexivity]|].
      rewrite S2. unfold stream. cbn [map concat fst snd]. rewrite app_nil_r, <- !app_assoc. reflexivity.
Qed.

Lemma f2_in_l {A B} (R : A -> B -> Prop) l l' : Forall2 R l l' -> forall x, In x l -> exists y, In y l' /\ R x y.
Proof. induction 1 as [|a b l l' H HF IH]; intros x Hx; [destruct Hx|]. destruct Hx as [<-|Hx]; [exists b; cbn; auto|]. destruct (IH x Hx) as (y & H1 & H2). exists y. cbn. auto. Qed.
Lemma f2_in_r {A B} (R : A -> B -> Prop) l l' : Forall2 R l l' -> forall y, In y l' -> exists x, In x l /\ R x y.
Proof. induction 1 as [|a b l l' H HF IH]; intros y Hy; [destruct Hy|]. destruct Hy as [<-|Hy]; [exists a; cbn; auto|]. destruct (IH y Hy) as (x & H1 & H2). exists x. cbn. auto. Qed.

Lemma contains_kind d r t t' : contains d t r -> contains d t' r -> is_fdir t = is_fdir t' -> is_fdir t = false -> t = t'.
Proof.
  intros H1 H2 E Ef. destruct t as [b|]; [|discriminate]. destruct t' as [b'|]; [|discriminate]. f_equal.
  inversion H1 as [? ? A1 A2| |]; subst. inversion H2 as [? ? B1 B2| |]; subst. rewrite A1 in B1.
  destruct b as [|x b], b' as [|x' b']; auto; try (unfold len in B1; cbn in B1; lia).
  specialize (A2 ltac:(discriminate)). specialize (B2 ltac:(discriminate)). rewrite <- B1, A2 in B2. injection B2 as -> ->. reflexivity.
Qed.

Lemma c45_lemma H d v t : lawful d -> is_fdir t = true -> plain t -> contains d t (v_root v) ->
  exists s, fingerprint t s /\ returns (fun fuel => checksum H fuel d v) (Ok (H (stream s))).
Proof.
  intros HL Ht HPl HC. destruct (contains_listing d t [] (v_root v) Ht HC) as (l & L1 & L2 & L3).
  destruct (file_tree_lemma d _ l HL L1) as (out & HP & n & HR).
  pose proof (contains_proper _ _ _ HC) as HPr. pose proof (contains_scalar _ _ _ HC) as HSc.
  destruct (checksum_map_spec out) as (M1 & M2 & M3).
  assert (HE : forall k e, In (k, e) (checksum_map out) -> exists p t', p <> [] /\ at_path t p t' /\ k = slashed p /\ entry_is d e t').
  { intros k e Hin. destruct (M2 k e Hin) as (q & Hq & ->). apply (Permutation_in _ HP) in Hq.
    destruct (L2 q e Hq) as (qs & t' & A & -> & B). exists (qs ++ [name_str e]), t'. split; [destruct qs; discriminate|]. split; auto. split; auto.
    unfold key. cbn [fst snd app]. rewrite slashed_app, slashed_cons. cbn [slashed map concat]. rewrite app_nil_r. reflexivity. }
  destruct (checksum_fold d (checksum_map out) []) as (s & S1 & S2).
  { rewrite Forall_forall. intros [k e] Hin. destruct (HE k e Hin) as (p & t' & A & B & -> & C). cbn [fst snd]. split; [|eauto].
    apply slashed_scalar. eapply every_path; eauto. }
  exists s. split; [split|].
  - clear -M1 S1. induction S1 as [|[k e] [k' c] m s (E & _) HF IH]; [constructor|]. cbn [fst snd] in E. subst k'. inversion M1 as [|? ? M2 M3]; subst.
    constructor; auto. rewrite Forall_forall in *. intros y Hy. destruct (f2_in_r _ _ _ HF y Hy) as ([k1 e1] & Hx & (E' & _)). destruct y as [k2 c2]. cbn [fst snd] in *. subst k2. apply lex_lt_iff. apply (M3 _ Hx).
  - intros k c. split.
    + intros Hin. destruct (f2_in_r _ _ _ S1 _ Hin) as ([k' e] & Hx & E & t0 & E0 & Ec). cbn [fst snd] in *. subst k' c.
      destruct (HE k e Hx) as (p & t' & A & B & C & D). exists p, t'. split; auto. split; auto. split; auto.
      destruct D as (D1 & D2), E0 as (E1 & E2). destruct (is_dir e) eqn:Ed.
      * destruct t0; [discriminate|]. destruct t'; [discriminate|]. reflexivity.
      * rewrite (contains_kind d (region_of e) t0 t'); auto; congruence.
    + intros (p & t' & A & B & -> & ->). destruct (exists_last A) as (qs & n0 & ->). destruct (L3 qs n0 t' B) as (e & E1 & <- & E2).
      apply (Permutation_in _ (Permutation_sym HP)) in E1. destruct (M3 _ _ E1) as (e' & E3).
      cbn [app] in E3. assert (Ek : key (slashed qs, e) = slashed (qs ++ [name_str e])).
      { unfold key. cbn [fst snd app]. rewrite slashed_app, slashed_cons. cbn [slashed map concat]. rewrite app_nil_r. reflexivity. }
      rewrite Ek in E3. destruct (f2_in_l _ _ _ S1 _ E3) as ([k' c] & Hy & E & t0 & E0 & Ec). cbn [fst snd] in *. subst k' c.
      destruct (HE _ _ E3) as (p' & t1 & A1 & B1 & C1 & D1).
      apply slashed_inj in C1; [|eapply plain_path; eauto|eapply plain_path; eauto]. subst p'.
      pose proof (at_same t _ _ _ HPr B B1) as <-. destruct D1 as (D1 & D2), E0 as (E0 & E0').
      replace (content t') with (content t0); [exact Hy|]. destruct (is_dir e') eqn:Ed.
      * destruct t0; [discriminate|]. destruct t'; [discriminate|]. reflexivity.
      * rewrite (contains_kind d (region_of e') t0 t'); auto; congruence.
  - exists n. intros fuel Hf. unfold checksum. rewrite (HR fuel Hf). cbn [bind]. rewrite S2. reflexivity.
Qed.

(** There is one fingerprint only, and it does not depend on the order. *)
Lemma lex_lt_irr a : ~ lex_lt a a.
Proof. intros H. apply lex_lt_iff in H. change (str_cmp a a = Lt) in H. rewrite str_cmp_refl in H. discriminate. Qed.
Lemma lex_lt_trans a b c : lex_lt a b -> lex_lt b c -> lex_lt a c.
Proof. rewrite <- !lex_lt_iff. apply str_cmp_trans. Qed.

Lemma sorted_same {V} (s : list (str * V)) : forall s', StronglySorted (fun a b => lex_lt (fst a) (fst b)) s -> StronglySorted (fun a b => lex_lt (fst a) (fst b)) s' ->
  (forall x, In x s <-> In x s') -> s = s'.
Proof.
  induction s as [|x s IH]; intros s' H1 H2 HI.
  - destruct s' as [|y s']; auto. exfalso. apply (proj2 (HI y)). left. auto.
  - destruct s' as [|y s']; [exfalso; apply (proj1 (HI x)); left; auto|].
    inversion H1 as [|? ? A1 A2]; subst. inversion H2 as [|? ? B1 B2]; subst. rewrite Forall_forall in A2, B2.
    assert (x = y) as ->.
    { destruct (proj1 (HI x) (or_introl eq_refl)) as [E|Hx]; auto. destruct (proj2 (HI y) (or_introl eq_refl)) as [E|Hy]; auto.
      exfalso. apply (lex_lt_irr (fst x)). eapply lex_lt_trans; [apply A2; exact Hy|apply B2; exact Hx]. }
    f_equal. apply IH; auto. intros z. split; intros Hz.
    + destruct (proj1 (HI z) (or_intror Hz)) as [<-|]; auto. exfalso. apply (lex_lt_irr (fst y)). auto.
    + destruct (proj2 (HI z) (or_intror Hz)) as [<-|]; auto. exfalso. apply (lex_lt_irr (fst y)). auto.
Qed.

Lemma same_at t p s : at_path t p s -> forall t', same_tree t t' -> exists s', at_path t' p s' /\ same_tree s s'.
Proof.
  induction 1 as [t|cs n t p s Hin Hat IH]; intros t' Hs; [exists t'; split; [constructor|auto]|].
  destruct (same_fdir_l _ _ Hs) as (ds & ->). destruct (same_child _ _ _ _ Hs Hin) as (t1 & H1 & H2). destruct (IH _ H2) as (s' & A & B).
  exists s'. split; auto. eapply at_child; eauto.
Qed.
Lemma same_at_back t p s' : forall t0, at_path t0 p s' -> same_tree t t0 -> exists s, at_path t p s /\ same_tree s s'.
Proof.
  intros t0 Hat. revert t. induction Hat as [t0|ds n t1 p s' Hin Hat IH]; intros t Hs; [exists t; split; [constructor|auto]|].
  inversion Hs as [|cs ? ? _ _]; subst. destruct (same_child_back _ _ _ _ Hs Hin) as (s & H1 & H2). destruct (IH _ H2) as (s0 & A & B).
  exists s0. split; auto. eapply at_child; eauto.
Qed.
Lemma same_content s s' : same_tree s s' -> content s = content s'.
Proof. intros H. inversion H; reflexivity. Qed.

Lemma fingerprint_same t t' s s' : same_tree t t' -> fingerprint t s -> fingerprint t' s' -> s = s'.
Proof.
  intros Hs (A1 & A2) (B1 & B2). apply sorted_same; auto. intros [k c]. rewrite A2, B2. split.
  - intros (p & x & H1 & H2 & H3 & ->). destruct (same_at _ _ _ H2 _ Hs) as (x' & H4 & H5). exists p, x'. rewrite (same_content _ _ H5). auto.
  - intros (p & x & H1 & H2 & H3 & ->). destruct (same_at_back _ _ _ _ H2 Hs) as (x' & H4 & H5). exists p, x'. rewrite (same_content _ _ H5). auto.
Qed.

(** ** C46 *)
Lemma app_same_length {A} (a : list A) : forall a' b b', length a = length a' -> a ++ b = a' ++ b' -> a = a' /\ b = b'.
Proof.
  induction a as [|x a IH]; intros [|x' a'] b b' Hl E; try discriminate; auto. cbn in *. injection E as -> E.
  destruct (IH a' b b') as (-> & ->); auto.
Qed.
Lemma c46_shape (s : list (str * option (list byte))) : forall s', map shape s = map shape s' -> stream s = stream s' -> s = s'.
Proof.
  induction s as [|[k c] s IH]; intros [|[k' c'] s'] Hm He; try discriminate; auto. cbn [map] in Hm. injection Hm as Hk Hl Hm. unfold shape in *. cbn [fst snd] in *.
  subst k'. unfold stream in He. cbn [map concat fst snd] in He. rewrite <- !app_assoc in He. apply app_inv_head in He.
  assert (E : c = c' /\ stream s = stream s').
  { destruct c as [b|], c' as [b'|]; try discriminate; [|split; auto]. cbn [option_map] in Hl. injection Hl as Hl. unfold len in Hl. apply Nat2N.inj in Hl.
    destruct (app_same_length _ _ _ _ Hl He) as (A & B). subst. auto. }
  destruct E as (-> & E). f_equal. apply IH; auto.
Qed.

Lemma c46_lemma H d d' v v' t t' s s' : lawful d -> lawful d' -> is_fdir t = true -> is_fdir t' = true -> plain t -> plain t' ->
  contains d t (v_root v) -> contains d' t' (v_root v') -> fingerprint t s -> fingerprint t' s' -> map shape s = map shape s' ->
  (forall a b, H a = H b -> a = b) ->
  forall h, returns (fun fuel => checksum H fuel d v) (Ok h) -> returns (fun fuel => checksum H fuel d' v') (Ok h) -> s = s'.
Proof.
  intros L1 L2 T1 T2 P1 P2 C1 C2 F1 F2 Hm HH h R1 R2.
  destruct (c45_lemma H d v t L1 T1 P1 C1) as (s0 & F0 & R0). destruct (c45_lemma H d' v' t' L2 T2 P2 C2) as (s0' & F0' & R0').
  assert (s0 = s) as ->.
  { destruct F0, F1. apply sorted_same; auto. intros [k c]. rewrite H1, H3. reflexivity. }
  assert (s0' = s') as ->.
  { destruct F0', F2. apply sorted_same; auto. intros [k c]. rewrite H1, H3. reflexivity. }
  assert (E1 : Ok h = Ok (H (stream s)) :> res rerr (list byte)) by (destruct R1 as (n & R1), R0 as (n0 & R0); rewrite <- (R1 (Nat.max n n0)), <- (R0 (Nat.max n n0)) by lia; reflexivity).
  assert (E2 : Ok h = Ok (H (stream s')) :> res rerr (list byte)) by (destruct R2 as (n & R2), R0' as (n0 & R0'); rewrite <- (R2 (Nat.max n n0)), <- (R0' (Nat.max n n0)) by lia; reflexivity).
  apply c46_shape; auto. apply HH. congruence.
Qed.

Lemma c45_packed H m m' t t' img img' v v' : source t -> source t' -> plain t -> plain t' -> same_tree t t' -> packs m t img -> packs m' t' img' ->
  read_volume (file_dev img) = Ok v -> read_volume (file_dev img') = Ok v' ->
  exists h, returns (fun fuel => checksum H fuel (file_dev img) v) (Ok h) /\ returns (fun fuel => checksum H fuel (file_dev img') v') (Ok h).
Proof.
  intros S1 S2 Pl1 Pl2 Hs P1 P2 V1 V2.
  destruct (packed_image_holds m t img S1 P1) as (w & W & Hh). rewrite V1 in W. injection W as <-.
  destruct (packed_image_holds m' t' img' S2 P2) as (w & W & Hh'). rewrite V2 in W. injection W as <-.
  destruct S1 as (T1 & _), S2 as (T2 & _).
  destruct (c45_lemma H _ v t (file_lawful img) T1 Pl1 (holds_contains _ _ _ Hh)) as (s & F & R).
  destruct (c45_lemma H _ v' t' (file_lawful img') T2 Pl2 (holds_contains _ _ _ Hh')) as (s' & F' & R').
  rewrite <- (fingerprint_same _ _ _ _ Hs F F') in R'. eauto.
Qed.
Lemma c45_same H d d' v v' t t' : lawful d -> lawful d' -> is_fdir t = true -> plain t -> plain t' -> same_tree t t' ->
  contains d t (v_root v) -> contains d' t' (v_root v') ->
  exists h, returns (fun fuel => checksum H fuel d v) (Ok h) /\ returns (fun fuel => checksum H fuel d' v') (Ok h).
Proof.
  intros L1 L2 T1 P1 P2 Hs C1 C2. assert (T2 : is_fdir t' = true) by (rewrite <- (same_kind _ _ Hs); auto).
  destruct (c45_lemma H _ v t L1 T1 P1 C1) as (s & F & R).
  destruct (c45_lemma H _ v' t' L2 T2 P2 C2) as (s' & F' & R').
  rewrite <- (fingerprint_same _ _ _ _ Hs F F') in R'. eauto.
Qed.
