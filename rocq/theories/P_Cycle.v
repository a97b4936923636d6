(** Proofs about endless traversals (C32). *)
From Verif Require Import M_Base M_Util M_Layout M_Read S_Avl S_Codec S_Read S_Cycle P_Base P_Read P_Path P_Find P_Term P_Fuse P_Witness.
From Coq Require Import Init.Byte Relations Lia.
From Coq Require Import List.
Local Open Scope N_scope.

(** ** Finite graphs *)
Section Fin.
Variables (A : Type) (R : A -> A -> Prop) (V : list A).
Hypothesis HV : forall x y, R x y -> In y V.

(** Every node of [path] leads to [x]. *)
Lemma acc_path n : forall path x, (length V - length path <= n)%nat -> NoDup path -> incl path V ->
  (forall v, In v path -> clos_refl_trans A R v x) -> In x path -> (forall v y, In v path -> clos_refl_trans A R v y -> ~ clos_trans A R y y) -> Acc (fun y x => R x y) x.
Proof.
  induction n as [|n IH]; intros path x Hn HN HI HP Hx HC; constructor; intros y Hy.
  all: assert (Hf : ~ In y path) by (intros Hyp; apply (HC y y Hyp (rt_refl _ _ _)); apply clos_rt_t with x; [auto|apply t_step; exact Hy]).
  all: assert (HN' : NoDup (y :: path)) by (constructor; auto).
  all: assert (HI' : incl (y :: path) V) by (intros z [<-|Hz]; [eapply HV; exact Hy|auto]).
  all: pose proof (NoDup_incl_length HN' HI') as L; cbn [length] in L.
  - lia.
  - apply (IH (y :: path)); auto; [cbn [length]; lia| |left; reflexivity|].
    + intros v [<-|Hv]; [apply rt_refl|]. eapply rt_trans; [apply HP; exact Hv|apply rt_step; exact Hy].
    + intros v z [<-|Hv] Hz; [|apply (HC v z Hv Hz)]. apply (HC x z Hx). eapply rt_trans; [apply rt_step; exact Hy|exact Hz].
Qed.

Lemma acyclic_acc x : (forall y, clos_refl_trans A R x y -> ~ clos_trans A R y y) -> Acc (fun y x => R x y) x.
Proof.
  intros H. constructor. intros y Hy. apply (acc_path (length V) [y]); [lia|constructor; [intros []|constructor]|intros z [<-|[]]; eapply HV; exact Hy| |left; reflexivity|].
  - intros v [<-|[]]. apply rt_refl.
  - intros v z [<-|[]] Hz. apply H. eapply rt_trans; [apply rt_step; exact Hy|exact Hz].
Qed.
End Fin.

Lemma t_rt {A} (R : A -> A -> Prop) x y : clos_trans A R x y -> clos_refl_trans A R x y.
Proof. induction 1; [apply rt_step; assumption|eapply rt_trans; eassumption]. Qed.
Lemma acc_acyclic {A} (R : A -> A -> Prop) x : Acc (fun y x => R x y) x -> ~ clos_trans A R x x.
Proof.
  induction 1 as [x _ IH]. intros H. apply clos_trans_t1n in H. assert (G : exists y, R x y /\ clos_refl_trans A R y x).
  { inversion H as [y Hy|y z Hy Hz]; subst; [exists x; split; [auto|apply rt_refl]|exists y; split; auto; apply clos_t1n_trans in Hz; apply t_rt; exact Hz]. }
  destruct G as (y & Hy & Hyx). apply (IH y Hy). eapply clos_rt_t; [exact Hyx|apply t_step; exact Hy].
Qed.
Lemma acc_reach {A} (R : A -> A -> Prop) x y : clos_refl_trans A R x y -> Acc (fun y x => R x y) x -> Acc (fun y x => R x y) y.
Proof. induction 1 as [x y H|x|x y z H1 IH1 H2 IH2]; auto. intros [H']. apply H'. exact H. Qed.

Lemma numbers_below (n : N) : exists l, forall k, k < n -> In k l.
Proof.
  induction n as [|n (l & IH)] using N.peano_ind; [exists []; intros; lia|]. exists (n :: l). intros k Hk. destruct (N.eq_dec k n) as [->|]; [left; reflexivity|right; apply IH; lia].
Qed.

(** ** Searching *)
Section Search.
Variables (d : dev) (HL : lawful d) (HR : real d).

Lemma entry_read r o e : o < r_size r -> (entry_at d r o e <-> read_dirent d (2048 * r_sector r + o) = Ok (Some e)).
Proof.
  intros Ho. rewrite read_dirent_iff by exact HL. unfold entry_at, stored_in. split; [tauto|]. intros (H1 & H2). ssplit; auto; lia.
Qed.
Lemma entry_in r o e : entry_at d r o e -> o < r_size r /\ read_dirent d (2048 * r_sector r + o) = Ok (Some e).
Proof. intros H. assert (Ho : o < r_size r) by (destruct H as ((_ & H) & E); lia). split; auto. apply entry_read; auto. Qed.
Lemma entry_unique r o e e' : entry_at d r o e -> entry_at d r o e' -> e = e'.
Proof. intros H1 H2. apply entry_in in H1 as (_ & H1). apply entry_in in H2 as (_ & H2). congruence. Qed.
Lemma entry_pointers r o e : entry_at d r o e -> d_left (e_node e) < 65536 /\ d_right (e_node e) < 65536 /\ r_sector (region_of e) < u32_modulus /\ r_size (region_of e) < u32_modulus.
Proof. intros (((hdr & name & H) & _) & _). unfold region_of. tauto. Qed.

(** One step of the search. *)
Lemma find_seeks r s o o' : seeks d r s o o' -> forall fuel, find_loop (S fuel) d r s (2048 * r_sector r + o) = find_loop fuel d r s (2048 * r_sector r + o').
Proof.
  intros (e & p & He & Hp & -> & Hs & Hc) fuel. apply entry_in in He as (Ho & He). cbn [find_loop]. rewrite He. cbn [ok_or bind].
  destruct Hc as [(-> & <-)|(-> & <-)]; (destruct (N.eqb_spec p 0) as [E|_]; [contradiction|]); rewrite region_offset_ok by auto; reflexivity.
Qed.
Lemma find_step r s o : o < r_size r -> (exists o', seeks d r s o o') \/ (exists x, x <> OutOfFuel /\ (forall fuel, find_loop (S fuel) d r s (2048 * r_sector r + o) = x)
  /\ forall e, x = Ok e -> entry_at d r o e /\ same_name s (name_str e)).
Proof.
  intros Ho. pose proof (read_dirent_real d (2048 * r_sector r + o) HR) as HN. cbn [find_loop]. destruct (read_dirent d (2048 * r_sector r + o)) as [[e|]|e|p|] eqn:E; [| | | |congruence]; cbn [ok_or bind].
  2,3,4: right; eexists; split; [|split; [reflexivity|]]; discriminate.
  apply entry_read in E; auto. destruct (cmp_ignore_case_utf8 s (name_str e)) eqn:EC.
  - right. exists (Ok e). ssplit; [discriminate|reflexivity|intros e' [= <-]; split; auto; apply same_name_iff; exact EC].
  - destruct (N.eqb_spec (d_left (e_node e)) 0) as [Ez|Ez]; [right; eexists; split; [|split; [reflexivity|]]; discriminate|].
    destruct (N.le_gt_cases (r_size r) (4 * d_left (e_node e))) as [H|H].
    + right. unfold region_offset. destruct (N.leb_spec (r_size r) (4 * d_left (e_node e))); [|lia]. cbn [bind]. eexists; split; [|split; [reflexivity|]]; discriminate.
    + left. exists (4 * d_left (e_node e)), e, (d_left (e_node e)). ssplit; auto.
  - destruct (N.eqb_spec (d_right (e_node e)) 0) as [Ez|Ez]; [right; eexists; split; [|split; [reflexivity|]]; discriminate|].
    destruct (N.le_gt_cases (r_size r) (4 * d_right (e_node e))) as [H|H].
    + right. unfold region_offset. destruct (N.leb_spec (r_size r) (4 * d_right (e_node e))); [|lia]. cbn [bind]. eexists; split; [|split; [reflexivity|]]; discriminate.
    + left. exists (4 * d_right (e_node e)), e, (d_right (e_node e)). ssplit; auto.
Qed.
Lemma seeks_inside r s o o' : seeks d r s o o' -> o' < r_size r.
Proof. intros (e & p & _ & _ & -> & H & _). exact H. Qed.

(** The search ends, at an entry that it has reached. *)
Lemma find_acc r s o : Acc (fun y x => seeks d r s x y) o -> o < r_size r ->
  exists x, x <> OutOfFuel /\ returns (fun fuel => find_loop fuel d r s (2048 * r_sector r + o)) x
    /\ forall e, x = Ok e -> exists o', clos_refl_trans N (seeks d r s) o o' /\ entry_at d r o' e /\ same_name s (name_str e).
Proof.
  induction 1 as [o _ IH]. intros Ho. destruct (find_step r s o Ho) as [(o' & Hs)|(x & H1 & H2 & H3)].
  - destruct (IH o' Hs (seeks_inside _ _ _ _ Hs)) as (x & H1 & (n & H2) & H3). exists x. ssplit; auto.
    + exists (S n). intros [|fuel] Hf; [lia|]. rewrite (find_seeks _ _ _ _ Hs). apply H2. lia.
    + intros e He. destruct (H3 e He) as (o2 & K1 & K2). exists o2. split; auto. eapply rt_trans; [apply rt_step; exact Hs|exact K1].
  - exists x. ssplit; auto.
    + exists 1%nat. intros [|fuel] Hf; [lia|]. apply H2.
    + intros e He. exists o. split; [apply rt_refl|apply H3; exact He].
Qed.
Lemma seeks_acc r s o : (forall y, clos_refl_trans N (seeks d r s) o y -> ~ clos_trans N (seeks d r s) y y) -> Acc (fun y x => seeks d r s x y) o.
Proof.
  destruct (numbers_below (r_size r)) as (V & HV). apply (acyclic_acc N (seeks d r s) V). intros x y H. apply HV. eapply seeks_inside. exact H.
Qed.

(** If it ends, it did not run in circles. *)
Lemma find_ends r s : forall fuel o, find_loop fuel d r s (2048 * r_sector r + o) <> OutOfFuel -> o < r_size r -> Acc (fun y x => seeks d r s x y) o.
Proof.
  induction fuel as [|fuel IH]; intros o H Ho; [cbn in H; congruence|]. constructor. intros o' Hs. apply IH; [|eapply seeks_inside; exact Hs]. rewrite <- (find_seeks _ _ _ _ Hs). exact H.
Qed.
Lemma find_not_circling r s fuel o : find_loop fuel d r s (2048 * r_sector r + 0) <> OutOfFuel -> 0 < r_size r -> clos_refl_trans N (seeks d r s) 0 o -> ~ clos_trans N (seeks d r s) o o.
Proof. intros H H0 Ho. apply acc_acyclic. eapply acc_reach; [exact Ho|]. eapply find_ends; eauto. Qed.

Lemma find_dirent_cases r s : find_dirent 0 d r s = Err DirectoryEmpty /\ (forall fuel, find_dirent fuel d r s = Err DirectoryEmpty) /\ r_size r = 0
  \/ 0 < r_size r /\ forall fuel, find_dirent fuel d r s = find_loop fuel d r s (2048 * r_sector r + 0).
Proof.
  unfold find_dirent, region_is_empty. destruct (N.eqb_spec (r_size r) 0) as [E|E]; [left; auto|right]. split; [lia|]. intros fuel. rewrite region_offset_ok by lia. reflexivity.
Qed.
Lemma seeks_empty r s o o' : r_size r = 0 -> ~ seeks d r s o o'.
Proof. intros H (e & p & He & _). apply entry_in in He as (He & _). lia. Qed.

Lemma walk_ends segs : forall r, segs <> [] -> ~ circles d r segs -> terminates (fun fuel => walk_segments fuel d r segs).
Proof.
  induction segs as [|s segs IH]; intros r Hne HC; [congruence|]. cbn [walk_segments].
  assert (F : exists x, x <> OutOfFuel /\ returns (fun fuel => find_dirent fuel d r s) x /\ forall e, x = Ok e -> exists o', clos_refl_trans N (seeks d r s) 0 o' /\ entry_at d r o' e /\ same_name s (name_str e)).
  { destruct (find_dirent_cases r s) as [(_ & H & _)|(Hz & H)].
    - exists (Err DirectoryEmpty). ssplit; [discriminate|exists 0%nat; intros; apply H|discriminate].
    - destruct (find_acc r s 0) as (x & H1 & (n & H2) & H3); [apply seeks_acc; intros y Hy Hc; apply HC; eapply circles_here; eauto|exact Hz|].
      exists x. ssplit; auto. exists n. intros fuel Hf. rewrite H. apply H2. exact Hf. }
  destruct F as (x & Hx & (n & Hn) & HF). destruct x as [e|e|e|]; [| | |congruence].
  - destruct (HF e eq_refl) as (o & Ho1 & Ho2 & Ho3). destruct segs as [|s' segs].
    + apply (terminates_const (Ok e) _ n); [discriminate|]. intros fuel Hf. rewrite Hn by auto. reflexivity.
    + destruct (is_dir e) eqn:EI.
      * destruct (IH (region_of e)) as (y & Hy & m & Hm); [discriminate|intros Hc; apply HC; eapply circles_below; eauto|]. exists y. split; auto. exists (Nat.max n m). intros fuel Hf.
        rewrite Hn by lia. cbn [bind]. rewrite is_dir_table, EI. cbn [bind ok_or]. apply Hm. lia.
      * apply (terminates_const (Err IsNotDirectory) _ n); [discriminate|]. intros fuel Hf. rewrite Hn by auto. cbn [bind]. rewrite is_dir_table, EI. reflexivity.
  - apply (terminates_const (Err e) _ n); [discriminate|]. intros fuel Hf. rewrite Hn by auto. reflexivity.
  - apply (terminates_const (Panic e) _ n); [discriminate|]. intros fuel Hf. rewrite Hn by auto. reflexivity.
Qed.

(** The search reaches an entry of the name: then it is the result. *)
Lemma find_reaches r s o o' e : clos_refl_trans_1n N (seeks d r s) o o' -> entry_at d r o' e -> same_name s (name_str e) -> exists n, forall fuel, (n <= fuel)%nat -> find_loop fuel d r s (2048 * r_sector r + o) = Ok e.
Proof.
  induction 1 as [o|o o1 o' Hs Hr IH]; intros He Hn.
  - exists 1%nat. intros [|fuel] Hf; [lia|]. apply entry_in in He as (_ & He). cbn [find_loop]. rewrite He. cbn [ok_or bind]. apply same_name_iff in Hn. rewrite Hn. reflexivity.
  - destruct (IH He Hn) as (n & H). exists (S n). intros [|fuel] Hf; [lia|]. rewrite (find_seeks _ _ _ _ Hs). apply H. lia.
Qed.
Lemma circles_hang r segs : circles d r segs -> forall fuel, segs <> [] -> ~ (exists n, forall k, (n <= k)%nat -> walk_segments (fuel + k) d r segs <> OutOfFuel).
Proof.
  induction 1 as [r s segs o H1 H2|r s segs o e H1 H2 H3 H4 H5 IH]; intros fuel _ (n & Hn).
  - assert (Hf : find_dirent (fuel + n) d r s <> OutOfFuel) by (specialize (Hn n (le_n _)); cbn [walk_segments] in Hn; destruct (find_dirent (fuel + n) d r s); cbn [bind] in Hn; congruence).
    destruct (find_dirent_cases r s) as [(_ & H & Hz)|(Hz & H)].
    + apply clos_trans_t1n in H2. inversion H2 as [y Hy|y z Hy _]; subst; eapply seeks_empty; eauto.
    + rewrite H in Hf. eapply find_not_circling; eauto.
  - destruct (find_dirent_cases r s) as [(_ & H & Hz)|(Hz & H)]; [apply entry_in in H2 as (H2 & _); lia|].
    apply clos_rt_rt1n in H1. destruct (find_reaches r s 0 o e H1 H2 H3) as (m & Hm).
    assert (Hne : segs <> []) by (inversion H5; discriminate).
    apply (IH fuel Hne). exists (Nat.max n m). intros k Hk. specialize (Hn k ltac:(lia)). cbn [walk_segments] in Hn. rewrite H, Hm in Hn by lia. cbn [bind] in Hn.
    destruct segs as [|s' segs]; [congruence|]. rewrite is_dir_table, H4 in Hn. cbn [ok_or bind] in Hn. exact Hn.
Qed.

Lemma c32_lookup_lemma r segs path : path_of segs path -> (terminates (fun fuel => walk_path fuel d r path) <-> ~ circles d r segs).
Proof.
  intros HP. assert (E : forall fuel, walk_path fuel d r path = walk_segments fuel d r segs) by (intros fuel; apply walk_path_segs; exact HP).
  assert (Hne : segs <> []) by (destruct HP as (? & ? & _ & _ & H & _); exact H). split.
  - intros (o & Ho & n & Hn) HC. apply (circles_hang _ _ HC 0%nat Hne). exists n. intros k Hk. rewrite <- E, Nat.add_0_l, Hn by lia. exact Ho.
  - intros HC. destruct (walk_ends segs r Hne HC) as (o & Ho & n & Hn). exists o. split; auto. exists n. intros fuel Hf. rewrite E. apply Hn. exact Hf.
Qed.

(** ** Listing a table *)
Lemma points_acc r o : (forall y, clos_refl_trans N (points d r) o y -> ~ clos_trans N (points d r) y y) -> Acc (fun y x => points d r x y) o.
Proof.
  destruct (numbers_below (4 * 65536)) as (V & HV). apply (acyclic_acc N (points d r) V). intros x y (e & p & He & Hp & _ & _ & ->). apply HV.
  apply entry_pointers in He. destruct Hp as [->|Hp]; [|rewrite Hp]; lia.
Qed.

Lemma walk_acc r o : Acc (fun y x => points d r x y) o -> forall st, (forall acc, terminates (fun fuel => walk_loop fuel d r st acc)) -> forall acc, terminates (fun fuel => walk_loop fuel d r (o :: st) acc).
Proof.
  induction 1 as [o _ IH]. intros st Hst acc. destruct (N.le_gt_cases (r_size r) o) as [Ho|Ho].
  - eapply (terminates_const (Err _) _ 1); [|intros [|fuel] Hf; [lia|]; cbn [walk_loop]; unfold region_offset; destruct (N.leb_spec (r_size r) o); [reflexivity|lia]]. discriminate.
  - pose proof (read_dirent_real d (2048 * r_sector r + o) HR) as HN. destruct (read_dirent d (2048 * r_sector r + o)) as [[e|]|e|p|] eqn:E; [| | | |congruence].
    + pose proof (proj2 (entry_read r o e Ho) E) as He.
      eapply terminates_S; [|intros fuel; cbn [walk_loop]; rewrite region_offset_ok by auto; cbn [bind]; rewrite E; cbn [bind]; reflexivity].
      assert (HC : forall (p : N) (st' : list N), p = d_left (e_node e) \/ p = d_right (e_node e) -> (forall acc, terminates (fun fuel => walk_loop fuel d r st' acc)) ->
        forall acc, terminates (fun fuel => walk_loop fuel d r (if negb (p =? 0) && negb (p =? 65535) then 4 * p :: st' else st') acc)).
      { intros p st' Hp H' acc'. destruct (N.eqb_spec p 0); cbn [negb andb]; auto. destruct (N.eqb_spec p 65535); cbn [negb]; auto. apply IH; auto. exists e, p. auto. }
      apply HC; auto.
    + eapply terminates_S; [apply (Hst acc)|]. intros fuel. cbn [walk_loop]. rewrite region_offset_ok by auto. cbn [bind]. rewrite E. reflexivity.
    + apply (terminates_const (Err e) _ 1); [discriminate|]. intros [|fuel] Hf; [lia|]. cbn [walk_loop]. rewrite region_offset_ok by auto. cbn [bind]. rewrite E. reflexivity.
    + apply (terminates_const (Panic p) _ 1); [discriminate|]. intros [|fuel] Hf; [lia|]. cbn [walk_loop]. rewrite region_offset_ok by auto. cbn [bind]. rewrite E. reflexivity.
Qed.
Lemma walk_table_ends r : ~ cyclic_table d r -> terminates (fun fuel => walk_dirent_tree fuel d r).
Proof.
  intros H. unfold walk_dirent_tree. destruct (region_is_empty r).
  - apply (terminates_const (Ok []) _ 0); auto; discriminate.
  - apply walk_acc; [apply points_acc; intros y Hy Hc; apply H; exists y; auto|]. intros acc. apply (terminates_const (Ok acc) _ 0); [discriminate|]. intros [|fuel] _; reflexivity.
Qed.

(** A successful listing has visited everything that can be reached. *)
Lemma walk_ok r fuel : forall st acc l, walk_loop fuel d r st acc = Ok l ->
  Forall (Acc (fun y x => points d r x y)) st
  /\ (forall e, In e acc -> In e l)
  /\ (forall o o' e, In o st -> clos_refl_trans_1n N (points d r) o o' -> entry_at d r o' e -> In e l)
  /\ (forall e, In e l -> In e acc \/ exists o o', In o st /\ clos_refl_trans N (points d r) o o' /\ entry_at d r o' e).
Proof.
  induction fuel as [|fuel IH]; intros [|top st] acc l H; cbn [walk_loop] in H; try discriminate; try (injection H as <-; ssplit; [constructor|auto|intros o o' e []|auto]).
  unfold region_offset in H. destruct (N.leb_spec (r_size r) top) as [|Ho]; [discriminate|]. cbn [bind] in H. change SECTOR_SIZE with 2048 in H.
  destruct (read_dirent d (2048 * r_sector r + top)) as [[e|]|e|p|] eqn:E; cbn [bind] in H; try discriminate.
  - pose proof (proj2 (entry_read r top e Ho) E) as He. apply IH in H as (H1 & H2 & H3 & H4).
    set (l0 := d_left (e_node e)) in *. set (r0 := d_right (e_node e)) in *.
    set (st1 := if negb (l0 =? 0) && negb (l0 =? 65535) then 4 * l0 :: st else st) in *.
    set (st2 := if negb (r0 =? 0) && negb (r0 =? 65535) then 4 * r0 :: st1 else st1) in *.
    assert (I1 : forall o, In o st2 <-> In o st \/ points d r top o).
    { intros o. assert (A : forall p s, In o (if negb (p =? 0) && negb (p =? 65535) then 4 * p :: s else s) <-> In o s \/ (p <> 0 /\ p <> 65535 /\ o = 4 * p)).
      { intros p s. destruct (N.eqb_spec p 0); cbn [negb andb]; [tauto|]. destruct (N.eqb_spec p 65535); cbn [negb In]; intuition. }
      unfold st2. rewrite A. unfold st1. rewrite A. split.
      - intros [[K|(K1 & K2 & K3)]|(K1 & K2 & K3)]; auto; right; [exists e, l0|exists e, r0]; auto.
      - intros [K|(e' & p & K0 & K1 & K2)]; auto. rewrite (entry_unique r top e' e K0 He) in K1. fold l0 r0 in K1. destruct K1 as [->| ->]; tauto. }
    rewrite Forall_forall in H1. ssplit.
    + constructor; [constructor; intros o Ho'; apply H1; apply I1; auto|]. apply Forall_forall. intros o Hin. apply H1. apply I1. auto.
    + intros x Hx. apply H2. apply in_or_app. auto.
    + intros o o' x [<-|Hin] HP Hx; [|apply (H3 o o' x); auto; apply I1; auto]. inversion HP as [|o1 ? Q1 Q2]; subst.
      * rewrite (entry_unique r o' x e Hx He). apply H2. apply in_or_app. right. left. reflexivity.
      * apply (H3 o1 o' x); auto. apply I1. auto.
    + intros x Hx. destruct (H4 x Hx) as [K|(o & o' & K1 & K2 & K3)].
      * apply in_app_iff in K as [K|[<-|[]]]; auto. right. exists top, top. ssplit; [left; reflexivity|apply rt_refl|exact He].
      * right. apply I1 in K1 as [K1|K1]; [exists o, o'; ssplit; auto; right; auto|]. exists top, o'. ssplit; [left; reflexivity| |exact K3]. eapply rt_trans; [apply rt_step; exact K1|exact K2].
  - apply IH in H as (H1 & H2 & H3 & H4).
    assert (Hno : forall e, ~ entry_at d r top e) by (intros e He; apply entry_in in He as (_ & He); congruence).
    assert (Hnp : forall o, ~ points d r top o) by (intros o (e & p & He & _); eapply Hno; eauto). ssplit; auto.
    + constructor; auto. constructor. intros o Hp. destruct (Hnp _ Hp).
    + intros o o' x [<-|Hin] HP Hx; [|apply (H3 o o' x); auto]. inversion HP as [|o1 ? Q1 Q2]; subst; [destruct (Hno _ Hx)|destruct (Hnp _ Q1)].
    + intros x Hx. destruct (H4 x Hx) as [K|(o & o' & K1 & K2 & K3)]; auto. right. exists o, o'. ssplit; auto. right. exact K1.
Qed.
Lemma points_empty r o o' : r_size r = 0 -> ~ points d r o o'.
Proof. intros H (e & p & He & _). apply entry_in in He as (He & _). lia. Qed.
Lemma walk_tree_ok r fuel l : walk_dirent_tree fuel d r = Ok l ->
  ~ cyclic_table d r /\ forall e, In e l <-> exists o, clos_refl_trans N (points d r) 0 o /\ entry_at d r o e.
Proof.
  unfold walk_dirent_tree, region_is_empty. destruct (N.eqb_spec (r_size r) 0) as [E|E].
  - intros [= <-]. split.
    + intros (o & _ & H). apply clos_trans_t1n in H. inversion H as [y Hy|y z Hy _]; subst; eapply points_empty; eauto.
    + intros e. split; [intros []|]. intros (o & _ & He). apply entry_in in He as (He & _). lia.
  - intros H. apply walk_ok in H as (H1 & _ & H3 & H4). inversion H1 as [|? ? HA _]; subst. split.
    + intros (o & K1 & K2). revert K2. apply acc_acyclic. eapply acc_reach; eauto.
    + intros e. split.
      * intros He. destruct (H4 e He) as [[]|(o & o' & [<-|[]] & K)]. exists o'. exact K.
      * intros (o & K1 & K2). apply clos_rt_rt1n in K1. apply (H3 0 o e); auto. left. reflexivity.
Qed.
Lemma walk_tree_subdirs r fuel l : walk_dirent_tree fuel d r = Ok l -> forall r', subdir d r r' <-> exists e, In e l /\ is_dir e = true /\ r' = region_of e.
Proof.
  intros H r'. destruct (walk_tree_ok r fuel l H) as (_ & HI). split.
  - intros (o & e & K1 & K2 & K3). exists e. split; auto. apply HI. eauto.
  - intros (e & K1 & K2). apply HI in K1 as (o & K1 & K3). exists o, e. auto.
Qed.

(** ** Listing a tree *)
Lemma subdir_acc r : (forall y, clos_refl_trans region (subdir d) r y -> ~ clos_trans region (subdir d) y y) -> Acc (fun y x => subdir d x y) r.
Proof.
  destruct (numbers_below u32_modulus) as (V & HV). apply (acyclic_acc region (subdir d) (map (fun x => mkRegion (fst x) (snd x)) (list_prod V V))).
  intros x y (o & e & _ & He & _ & ->). apply entry_pointers in He as (_ & _ & He1 & He2). apply in_map_iff. exists (r_sector (region_of e), r_size (region_of e)). split; [destruct (region_of e); reflexivity|].
  apply in_prod; auto.
Qed.
Lemma push_dirs_subdirs parent children stack p t : In (p, t) (push_dirs parent children stack) -> In (p, t) stack \/ exists e, In e children /\ is_dir e = true /\ t = region_of e.
Proof.
  revert stack. unfold push_dirs. induction children as [|e children IH]; intros stack H; cbn [fold_left] in H; [auto|].
  apply IH in H as [H|(e' & H1 & H2)]; [|right; exists e'; split; [right; auto|auto]]. rewrite is_dir_table in H. destruct (is_dir e) eqn:Ed; [|auto].
  destruct H as [H|H]; [|auto]. right. exists e. ssplit; [left; reflexivity|exact Ed|]. injection H as _ H. symmetry. exact H.
Qed.
Lemma push_dirs_all parent children stack : (forall p t, In (p, t) stack -> exists p', In (p', t) (push_dirs parent children stack))
  /\ forall e, In e children -> is_dir e = true -> exists p', In (p', region_of e) (push_dirs parent children stack).
Proof.
  revert stack. unfold push_dirs. induction children as [|e children IH]; intros stack; cbn [fold_left]; [split; [eauto|intros e []]|].
  match goal with |- context [fold_left _ children ?s] => destruct (IH s) as (I1 & I2) end. rewrite is_dir_table in *. destruct (is_dir e) eqn:Ed; split.
  - intros p t H. apply (I1 p t). right. exact H.
  - intros e' [<-|H] Hd; [|apply I2; auto]. apply (I1 (parent ++ [SLASH] ++ name_str e)). left. reflexivity.
  - intros p t H. apply (I1 p t). exact H.
  - intros e' [<-|H] Hd; [congruence|apply I2; auto].
Qed.

Definition calm_tables (r : region) : Prop := forall r', clos_refl_trans region (subdir d) r r' -> ~ cyclic_table d r'.
Lemma tree_acc r : Acc (fun y x => subdir d x y) r -> calm_tables r -> forall p st, (forall out, terminates (fun fuel => file_tree_loop fuel d st out)) -> forall out, terminates (fun fuel => file_tree_loop fuel d ((p, r) :: st) out).
Proof.
  induction 1 as [r _ IH]. intros HC p st Hst out. destruct (walk_table_ends r) as (x & Hx & n & Hn); [apply HC; apply rt_refl|].
  destruct x as [l|e|e|]; [| | |congruence].
  - assert (Hsub : forall e, In e l -> is_dir e = true -> subdir d r (region_of e)) by (intros e K1 K2; eapply (walk_tree_subdirs r n l); [apply Hn; lia|eauto]).
    assert (G : forall l' st', incl l' l -> (forall out, terminates (fun fuel => file_tree_loop fuel d st' out)) -> forall out, terminates (fun fuel => file_tree_loop fuel d (push_dirs p l' st') out)).
    { unfold push_dirs. induction l' as [|e l' IHl]; intros st' Hi Hst' out'; cbn [fold_left]; [apply Hst'|]. apply IHl; [intros z Hz; apply Hi; right; exact Hz|]. clear out'. intros out'. rewrite is_dir_table.
      destruct (is_dir e) eqn:Ed; [|apply Hst']. apply IH; auto; [apply Hsub; auto; apply Hi; left; reflexivity|].
      intros r' Hr'. apply HC. eapply rt_trans; [apply rt_step; apply Hsub; [apply Hi; left; reflexivity|exact Ed]|exact Hr']. }
    destruct (G l st (incl_refl l) Hst (out ++ map (fun e => (p, e)) l)) as (y & Hy & m & Hm). exists y. split; auto. exists (S (Nat.max n m)). intros [|fuel] Hf; [lia|]. cbn [file_tree_loop]. rewrite Hn by lia. cbn [bind]. apply Hm. lia.
  - apply (terminates_const (Err e) _ (S n)); [discriminate|]. intros [|fuel] Hf; [lia|]. cbn [file_tree_loop]. rewrite Hn by lia. reflexivity.
  - apply (terminates_const (Panic e) _ (S n)); [discriminate|]. intros [|fuel] Hf; [lia|]. cbn [file_tree_loop]. rewrite Hn by lia. reflexivity.
Qed.
Lemma c32_tree_ends r : ~ cyclic_tree d r -> terminates (fun fuel => file_tree fuel d r).
Proof.
  intros H. unfold file_tree. apply tree_acc.
  - apply subdir_acc. intros y Hy Hc. apply H. exists y. auto.
  - intros r' Hr Hc. apply H. exists r'. auto.
  - intros out. apply (terminates_const (Ok out) _ 0); [discriminate|]. intros [|fuel] _; reflexivity.
Qed.

Lemma tree_ok fuel : forall st out l, file_tree_loop fuel d st out = Ok l -> forall p r, In (p, r) st -> Acc (fun y x => subdir d x y) r /\ calm_tables r.
Proof.
  induction fuel as [|fuel IH]; intros [|[p0 r0] st] out l H p r Hin; cbn [file_tree_loop] in H; try discriminate; [destruct Hin|destruct Hin|].
  destruct (walk_dirent_tree fuel d r0) as [ch|e|e|] eqn:E; cbn [bind] in H; try discriminate. specialize (IH _ _ _ H). destruct (push_dirs_all p0 ch st) as (P1 & P2).
  destruct Hin as [[= <- <-]|Hin]; [|destruct (P1 p r Hin) as (p' & K); eapply IH; exact K].
  assert (K : forall r', subdir d r0 r' -> Acc (fun y x => subdir d x y) r' /\ calm_tables r').
  { intros r' Hs. apply (walk_tree_subdirs _ _ _ E) in Hs as (e & K1 & K2 & ->). destruct (P2 e K1 K2) as (p' & K). eapply IH. exact K. }
  split; [constructor; intros r' Hs; apply K; exact Hs|]. intros r' Hr. apply clos_rt_rt1n in Hr. inversion Hr as [|r1 ? Q1 Q2]; subst.
  - eapply walk_tree_ok. exact E.
  - apply (proj2 (K r1 Q1)). apply clos_rt1n_rt. exact Q2.
Qed.
Lemma c32_tree_success fuel r l : file_tree fuel d r = Ok l -> ~ cyclic_tree d r.
Proof.
  intros H. destruct (tree_ok fuel _ _ _ H [] r (or_introl eq_refl)) as (HA & HC). intros (r' & Hr & [Hc|Hc]); [apply (HC r' Hr Hc)|]. revert Hc. apply acc_acyclic. eapply acc_reach; eauto.
Qed.
End Search.

(** ** The old condition *)
Lemma forward_acyclic d r : lawful d -> forward d r -> ~ cyclic_table d r.
Proof.
  intros HL HF (o & _ & Hc). assert (G : forall a b, clos_trans N (points d r) a b -> a < b).
  { induction 1 as [a b (e & p & He & Hp & Hz & _ & ->)|a b c _ IH1 _ IH2]; [|lia]. destruct He as (He & E). destruct (HF e He) as (F1 & F2). destruct Hp as [->|Hp]; [|rewrite Hp in *]; lia. }
  apply G in Hc. lia.
Qed.

(** ** Witnesses *)
Lemma loop_circles : circles (file_dev loop_img) root33 [[65]].
Proof.
  assert (H : forall o, match read_dirent (file_dev loop_img) (2048 * 33 + o) with
    | Ok (Some e) => cmp_ignore_case_utf8 [65] (name_str e) = Lt /\ d_left (e_node e) = 4
    | _ => False end -> o < 2048 -> seeks (file_dev loop_img) root33 [65] o 16).
  { intros o H Ho. destruct (read_dirent (file_dev loop_img) (2048 * 33 + o)) as [[e|]| | |] eqn:E; try contradiction. destruct H as (H1 & H2).
    exists e, 4. split; [apply (entry_read _ (file_lawful loop_img)); [exact Ho|exact E]|]. ssplit; [discriminate|reflexivity|reflexivity|left; split; [exact H1|symmetry; exact H2]]. }
  apply circles_here with 16.
  - apply rt_step, H; [vm_compute; split; reflexivity|reflexivity].
  - apply t_step, H; [vm_compute; split; reflexivity|reflexivity].
Qed.
Lemma nest_cyclic : cyclic_tree (file_dev nest_img) root33.
Proof.
  exists root33. split; [apply rt_refl|]. right. apply t_step.
  assert (H : match read_dirent (file_dev nest_img) (2048 * 33 + 0) with Ok (Some e) => is_dir e = true /\ region_of e = root33 | _ => False end) by (vm_compute; split; reflexivity).
  destruct (read_dirent (file_dev nest_img) (2048 * 33 + 0)) as [[e|]| | |] eqn:E; try contradiction. destruct H as (H1 & H2).
  exists 0, e. ssplit; [apply rt_refl|apply (entry_read _ (file_lawful nest_img)); [reflexivity|exact E]|exact H1|symmetry; exact H2].
Qed.
(** Both directions: the entry at byte 0 leads to byte 40, which leads back to byte 20. *)
Definition zigzag_img : list byte :=
  image_of (record 10 0 40 1 32 [x64] ++ fill 4 xff ++ record 0 0 40 1 32 [x63] ++ fill 4 xff ++ record 5 0 40 1 32 [x65]) [].
Lemma zigzag_lookup : terminates (fun fuel => walk_path fuel (file_dev zigzag_img) root33 [99]).
Proof.
  assert (T : match walk_path 9 (file_dev zigzag_img) root33 [99] with Ok _ => True | _ => False end) by (vm_compute; exact I).
  destruct (walk_path 9 (file_dev zigzag_img) root33 [99]) as [e| | |] eqn:E; try contradiction. apply (terminates_const (Ok e) _ 9); [discriminate|]. intros fuel Hf. eapply walk_path_fuel; [exact Hf|exact E].
Qed.
