(** Proofs about the progress that the pages show (C92, C111), the file system of a
    host directory (C109) and specs that are refused (C110). *)
From Verif Require Import M_Base M_Util M_Layout M_Avl M_Sector M_Dirtab M_Read M_Img M_Dev M_Xfs M_Remap M_Cli M_Unpack M_Exiso M_Stdfs M_Gui M_Host M_Build.
From Verif Require Import S_Avl S_Codec S_Table S_Read S_Img S_Gui.
From Verif Require Import P_Base P_Bytes P_Codec P_Place P_Dirtab P_Table P_Find P_Read P_Witness P_Map P_Tree P_Tabs P_Scan P_Disk P_Plan P_Pack P_Run P_Image P_File P_Packed P_More P_Events P_Gui.
From Coq Require Import Init.Byte.
Local Open Scope N_scope.

(** ** Packing *)
Lemma percent_bound d c : d <= c -> percent d c <= 100.
Proof. intros H. unfold percent. destruct (N.eqb_spec c 0); [lia|]. apply N.div_le_upper_bound; lia. Qed.
Lemma percent_end c : c <> 0 -> percent c c = 100.
Proof. intros H. unfold percent. destruct (N.eqb_spec c 0); [lia|]. apply N.div_mul. exact H. Qed.
Lemma view_percent k b v : builder_view k b = Ok v -> v_percent v = percent (b_done b) (b_count b).
Proof.
  unfold builder_view. destruct (if 1 <=? rank (b_state b) then _ else _) as [i|e|e|]; cbn [bind]; try discriminate.
  destruct (if 2 <=? rank (b_state b) then _ else _) as [o|e|e|]; cbn [bind]; try discriminate. intros H; injection H as <-. reflexivity.
Qed.
Lemma receives_follow l : forall b b', receives b (map UpdateProgress l) b' -> b' = fold_left follow l b.
Proof.
  induction l as [|e l IH]; cbn [map fold_left]; intros b b' H; inversion H; subst; auto. unfold follow at 2.
  match goal with E : builder_update _ _ = Ok _ |- _ => rewrite E end. auto.
Qed.

Lemma pack_shape m t fs fuel img evs : source t -> presents fs t -> copies fs t ->
  create_xdvdfs_image fuel m file_wdev fs ([], []) = ((img, evs), Ok tt) ->
  exists ns n k body, evs = map EDiscoveredDirectory ns ++ [EFileCount n; EDirCount k] ++ body ++ [EFinishedPacking]
    /\ (forall e, In e body -> is_dir_added e = true \/ is_file_added e = true) /\ len (filter is_file_added body) = n.
Proof.
  intros (Ht & HP & Hs) Hp Hc Hrun.
  pose proof (create_more m file_wdev fs fuel (fuel + S (length (dirs [] t))) _ _ _ Hrun ltac:(discriminate) ltac:(lia)) as Hrun'.
  destruct (pack_file m t HP Hs Ht) as [(pls & rs & HL & H)|(e & img' & es & Hr & H)].
  2:{ destruct (H fs (fuel + S (length (dirs [] t)))%nat [] Hp Hc) as (H1 & _); [lia|]. rewrite H1 in Hrun'. discriminate. }
  rewrite (H fs _ [] Hp Hc) in Hrun' by lia. injection Hrun' as <- Hev.
  assert (En : len (filter is_file_added (run_events t pls)) = entries (dirs [] t)) by (rewrite file_events, (entry_number m t pls rs HP HL); unfold len; rewrite map_length; reflexivity).
  destruct (first_split t) as (ns & n & k & E & ->). exists ns, (entries (dirs [] t)), k, (concat (map pl_events pls)). ssplit.
  - rewrite <- Hev. unfold run_events. rewrite E. cbn [app]. rewrite <- !app_assoc. reflexivity.
  - intros e He. apply in_concat in He as (x & Hx & He). apply in_map_iff in Hx as (pl & <- & _). destruct He as [<-|He]; [left; reflexivity|right]. apply in_map_iff in He as (y & <- & _). reflexivity.
  - rewrite <- En. unfold run_events. rewrite filter_app, E, filter_app. cbn [filter is_file_added app].
    assert (Z : filter is_file_added (map EDiscoveredDirectory ns) = []) by (clear; induction ns; cbn; auto). rewrite Z. reflexivity.
Qed.

Lemma prefix_cases {A} (p q a b : list A) : p ++ q = a ++ b -> (exists l, a = p ++ l) \/ exists l, p = a ++ l /\ b = l ++ q.
Proof.
  revert p. induction a as [|x a IH]; intros p H; [right; exists p; auto|].
  destruct p as [|y p]; [left; exists (x :: a); reflexivity|]. injection H as -> H. destruct (IH p H) as [(l & ->)|(l & -> & ->)]; [left; exists l; reflexivity|right; exists l; auto].
Qed.
Lemma prefix_map {A B} (f : A -> B) l p q : map f l = p ++ q -> exists l', p = map f l'.
Proof. revert p. induction l as [|x l IH]; intros [|y p] H; try discriminate; try (exists []; reflexivity). injection H as <- H. destruct (IH p H) as (l' & ->). exists (x :: l'). reflexivity. Qed.

Lemma c92_during m t fs fuel img evs l1 l2 b b' : source t -> presents fs t -> copies fs t ->
  create_xdvdfs_image fuel m file_wdev fs ([], []) = ((img, evs), Ok tt) -> b_done b = 0 -> evs = l1 ++ l2 -> receives b (map UpdateProgress l1) b' ->
  b_done b' <= b_count b' /\ (forall k v, builder_view k b' = Ok v -> v_percent v <= 100 /\ (l2 = [] -> b_count b' <> 0 -> v_percent v = 100)).
Proof.
  intros Hs Hp Hc Hrun Hb E Hr. apply receives_follow in Hr. subst b'. destruct (pack_shape m t fs fuel img evs Hs Hp Hc Hrun) as (ns & n & k & body & Es & Hbody & Hn).
  set (b' := fold_left follow l1 b).
  assert (G : b_done b' <= b_count b' /\ (l2 = [] -> b_done b' = b_count b')).
  { clear Hrun Hs Hp Hc. rewrite Es in E. subst b'. symmetry in E. destruct (prefix_cases _ _ _ _ E) as [(l & El)|(l & -> & E')].
    - destruct (prefix_map _ _ _ _ El) as (ns' & ->). rewrite follow_discovered, Hb. split; [lia|]. intros ->. rewrite app_nil_r in E. apply (f_equal (fun l => In EFinishedPacking l)) in E.
      assert (X : In EFinishedPacking (map EDiscoveredDirectory ns')) by (rewrite E; rewrite !in_app_iff; cbn; tauto). apply in_map_iff in X as (? & ? & _). discriminate.
    - rewrite fold_left_app. set (b1 := fold_left follow (map EDiscoveredDirectory ns) b). assert (D1 : b_done b1 = 0) by (subst b1; rewrite follow_discovered; exact Hb). clearbody b1.
      destruct l as [|e1 l]; [cbn; rewrite D1; split; [lia|]; intros ->; discriminate|]. injection E' as <- E'.
      destruct l as [|e2 l]; [cbn; rewrite D1; split; [lia|]; intros ->; discriminate|]. injection E' as <- E'. cbn [fold_left].
      set (b2 := follow (follow b1 (EFileCount n)) (EDirCount k)). assert (D2 : b_done b2 = 0 /\ b_count b2 = n) by (split; [exact D1|reflexivity]). clearbody b2. destruct D2 as (D2 & C2).
      symmetry in E'. destruct (prefix_cases _ _ _ _ E') as [(r & Er)|(r & -> & Er)].
      + destruct (follow_added l) with (b := b2) as (F1 & F2); [intros e He; apply Hbody; rewrite Er; apply in_or_app; auto|]. rewrite F1, F2, C2, D2, <- Hn, Er, filter_app. unfold len. rewrite app_length. split; [lia|].
        intros ->. rewrite app_nil_r in E'. rewrite E' in Er. assert (X : length body = length ((body ++ [EFinishedPacking]) ++ r)) by (rewrite <- Er; reflexivity). rewrite !app_length in X. cbn in X. lia.
      + rewrite fold_left_app. destruct (follow_added body Hbody b2) as (F1 & F2). rewrite C2 in F1. rewrite D2, Hn in F2.
        destruct r as [|e r]; [cbn; rewrite F1, F2; split; lia|]. injection Er as <- Er. destruct r; [|discriminate]. cbn. rewrite F1, F2. split; lia. }
  split; [apply G|]. intros kk v Hv. rewrite (view_percent _ _ _ Hv). split; [apply percent_bound; apply G|]. intros H2 H0. destruct G as (_ & G). rewrite (G H2). apply percent_end. exact H0.
Qed.

(** ** Compression *)
Definition cfollow (b : builder) (c : cprogress) : builder := match builder_update b (UpdateCompression c) with Ok (b', _) => b' | _ => b end.
Lemma receives_cfollow l : forall b b', receives b (map UpdateCompression l) b' -> b' = fold_left cfollow l b.
Proof.
  induction l as [|e l IH]; cbn [map fold_left]; intros b b' H; inversion H; subst; auto. unfold cfollow at 2.
  match goal with E : builder_update _ _ = Ok _ |- _ => rewrite E end. auto.
Qed.
Lemma web_reports_app a b : web_reports (a ++ b) = web_reports a ++ web_reports b.
Proof. induction a as [|e a IH]; cbn; auto. destruct (web_report e); rewrite IH; reflexivity. Qed.
Lemma web_sectors k : forall b, b_count (fold_left cfollow (web_reports (repeat CSectorFinished k)) b) = b_count b
  /\ b_done (fold_left cfollow (web_reports (repeat CSectorFinished k)) b) = b_done b + N.of_nat k.
Proof. induction k as [|k IH]; intros b; [cbn; lia|]. cbn [repeat web_reports web_report fold_left]. destruct (IH (cfollow b (SectorsDone 1))) as (-> & ->). cbn. split; [reflexivity|lia]. Qed.

Lemma desk_sectors k : forall q b, q < 739 -> b_count (fold_left cfollow (desk_reports q (repeat CSectorFinished k)) b) = b_count b
  /\ b_done (fold_left cfollow (desk_reports q (repeat CSectorFinished k)) b) = b_done b + (q + N.of_nat k - (q + N.of_nat k) mod 739).
Proof.
  induction k as [|k IH]; intros q b Hq.
  - cbn [repeat desk_reports fold_left]. split; [reflexivity|]. rewrite N.add_0_r, N.mod_small by exact Hq. lia.
  - cbn [repeat desk_reports desk_report]. destruct (N.eqb_spec ((q + 1) mod 739) 0) as [E|E].
    + assert (q = 738).
      { destruct (N.eq_dec (q + 1) 739); [lia|]. rewrite N.mod_small in E by lia. lia. }
      subst q. cbn [fold_left]. destruct (IH 0 (cfollow b (SectorsDone (738 + 1))) ltac:(lia)) as (-> & ->). cbn [cfollow builder_update b_count b_done]. split; [reflexivity|].
      replace (738 + N.of_nat (S k)) with (N.of_nat k + 1 * 739) by lia. rewrite N.mod_add by lia. rewrite N.add_0_l. pose proof (N.mod_le (N.of_nat k) 739 ltac:(lia)). lia.
    + assert (q + 1 < 739).
      { destruct (N.eq_dec (q + 1) 739) as [X|X]; [rewrite X in E; exfalso; apply E; reflexivity|lia]. }
      destruct (IH (q + 1) b H) as (-> & ->). split; [reflexivity|]. replace (q + 1 + N.of_nat k) with (q + N.of_nat (S k)) by lia. reflexivity.
Qed.
Lemma desk_reports_app a : forall q b, exists q', desk_reports q (a ++ b) = desk_reports q a ++ desk_reports q' b.
Proof. induction a as [|e a IH]; intros q b; cbn [app desk_reports]; [exists q; reflexivity|]. destruct (desk_report q e) as (q1 & m). destruct (IH q1 b) as (q' & E). exists q'. rewrite E. destruct m; reflexivity. Qed.

Lemma cfollow_end b : b_count (cfollow b CompressionFinished) = b_count b /\ b_done (cfollow b CompressionFinished) = b_count b.
Proof. split; reflexivity. Qed.
(** After [k] sectors, and at the end. *)
Lemma c111_web n k b b' : k <= n -> receives b (map UpdateCompression (web_reports (CSectorCount n :: repeat CSectorFinished (N.to_nat k)))) b' -> b_count b' = n /\ b_done b' = k.
Proof.
  intros Hk H. apply receives_cfollow in H. subst b'. cbn [web_reports web_report fold_left]. destruct (web_sectors (N.to_nat k) (cfollow b (SectorCount n))) as (-> & ->). cbn. split; [reflexivity|lia].
Qed.
Lemma c111_desk n k b b' : k <= n -> receives b (map UpdateCompression (desk_reports 0 (CSectorCount n :: repeat CSectorFinished (N.to_nat k)))) b' -> b_count b' = n /\ b_done b' = k - k mod 739.
Proof.
  intros Hk H. apply receives_cfollow in H. subst b'. cbn [desk_reports desk_report fold_left]. destruct (desk_sectors (N.to_nat k) 0 (cfollow b (SectorCount n)) ltac:(lia)) as (-> & ->). cbn [cfollow builder_update b_count b_done].
  rewrite !N.add_0_l, N2Nat.id. split; reflexivity.
Qed.
Lemma c111_end rep n b b' : rep = web_reports \/ rep = desk_reports 0 -> receives b (map UpdateCompression (rep (compression n))) b' ->
  b_count b' = n /\ b_done b' = n /\ forall k v, builder_view k b' = Ok v -> n <> 0 -> v_percent v = 100.
Proof.
  intros Hm H. apply receives_cfollow in H.
  assert (G : b_count b' = n /\ b_done b' = n).
  { subst b'. unfold compression. destruct Hm as [->| ->].
    - cbn [web_reports web_report]. rewrite web_reports_app. cbn [fold_left web_reports web_report]. rewrite fold_left_app. cbn [fold_left].
      destruct (web_sectors (N.to_nat n) (cfollow b (SectorCount n))) as (E & _). match goal with |- context [cfollow ?x CompressionFinished] => destruct (cfollow_end x) as (-> & ->) end. rewrite !E. split; reflexivity.
    - cbn [desk_reports desk_report]. destruct (desk_reports_app (repeat CSectorFinished (N.to_nat n)) 0 [CFinished]) as (q & ->). cbn [fold_left desk_reports desk_report]. rewrite fold_left_app. cbn [fold_left].
      destruct (desk_sectors (N.to_nat n) 0 (cfollow b (SectorCount n)) ltac:(lia)) as (E & _). match goal with |- context [cfollow ?x CompressionFinished] => destruct (cfollow_end x) as (-> & ->) end. rewrite !E. split; reflexivity. }
  destruct G as (G1 & G2). split; [exact G1|]. split; [exact G2|]. intros k v Hv Hn. rewrite (view_percent _ _ _ Hv), G1, G2. apply percent_end. exact Hn.
Qed.
Lemma c111_never_back rep n k1 k2 b1 b2 c : rep = web_reports \/ rep = desk_reports 0 -> k1 <= k2 -> k2 <= n ->
  receives c (map UpdateCompression (rep (CSectorCount n :: repeat CSectorFinished (N.to_nat k1)))) b1 -> receives c (map UpdateCompression (rep (CSectorCount n :: repeat CSectorFinished (N.to_nat k2)))) b2 ->
  forall k v1 v2, builder_view k b1 = Ok v1 -> builder_view k b2 = Ok v2 -> v_percent v1 <= v_percent v2 /\ v_percent v2 <= 100.
Proof.
  intros Hm H1 H2 R1 R2 k v1 v2 V1 V2. rewrite (view_percent _ _ _ V1), (view_percent _ _ _ V2).
  assert (G : b_count b1 = n /\ b_count b2 = n /\ b_done b1 <= b_done b2 /\ b_done b2 <= n).
  { destruct Hm as [->| ->].
    - apply c111_web in R1 as (-> & ->); [|lia]. apply c111_web in R2 as (-> & ->); [|lia]. lia.
    - apply c111_desk in R1 as (-> & ->); [|lia]. apply c111_desk in R2 as (-> & ->); [|lia].
      assert (X : forall z, z - z mod 739 = 739 * (z / 739)) by (intros z; pose proof (N.div_mod z 739 ltac:(lia)); lia).
      pose proof (X k1) as X1. pose proof (N.div_le_mono k1 k2 739 ltac:(lia) H1). rewrite X1, (X k2). pose proof (N.mul_div_le k2 739 ltac:(lia)). lia. }
  destruct G as (-> & -> & G1 & G2). split; [|apply percent_bound; exact G2]. unfold percent. destruct (N.eqb_spec n 0); [lia|]. apply N.div_le_mono; lia.
Qed.

(** ** Host directories *)
Lemma mapM_ok {E A B} (f : A -> res E B) l : (forall x, In x l -> exists y, f x = Ok y) -> exists ys, mapM f l = Ok ys /\ Forall2 (fun x y => f x = Ok y) l ys.
Proof.
  induction l as [|x l IH]; intros H; cbn; [exists []; auto|]. destruct (H x (or_introl eq_refl)) as (y & Ey). destruct IH as (ys & Es & F); [intros z Hz; apply H; right; exact Hz|].
  rewrite Ey. cbn. rewrite Es. cbn. exists (y :: ys). auto.
Qed.
Lemma c109_list h ls root p : match h (root ++ p) with
  | Some HDir => (forall n, In n (ls (root ++ p)) -> h ((root ++ p) ++ [n]) <> None) ->
      exists es, read_dir (host_fs h ls root) p = Ok es /\ map f_name es = ls (root ++ p)
       /\ forall e, In e es -> match h ((root ++ p) ++ [f_name e]) with Some HDir => f_type e = TDirectory | Some (HFile b) => f_type e = TFile /\ f_len e = len b | None => False end
  | _ => exists e, read_dir (host_fs h ls root) p = Err e
  end.
Proof.
  cbn. unfold host_read_dir. destruct (h (root ++ p)) as [[|b]|]; [|eauto|eauto]. intros H.
  destruct (mapM_ok (host_entry h (root ++ p)) (ls (root ++ p))) as (es & E & F).
  - intros n Hn. specialize (H n Hn). unfold host_entry. destruct (h ((root ++ p) ++ [n])) as [[|b]|]; eauto. congruence.
  - exists es. split; [exact E|]. clear E H. induction F as [|n e ns es Hn F IH]; [split; [reflexivity|intros e []]|]. destruct IH as (IH1 & IH2).
    assert (G : f_name e = n /\ match h ((root ++ p) ++ [n]) with Some HDir => f_type e = TDirectory | Some (HFile b) => f_type e = TFile /\ f_len e = len b | None => False end).
    { unfold host_entry in Hn. destruct (h ((root ++ p) ++ [n])) as [[|b]|]; try discriminate; injection Hn as <-; cbn; auto. }
    destruct G as (G1 & G2). split; [cbn; rewrite G1, IH1; reflexivity|]. intros e' [<-|He]; [rewrite G1; exact G2|apply IH2; exact He].
Qed.
Lemma c109_copied h ls root p dest input output size : match h (root ++ p) with
  | Some (HFile b) => exists dest', copy_in (host_fs h ls root) p dest input output size = (dest', Ok (N.min size (len b - input)))
      /\ forall i, nth (N.to_nat i) dest' x00 = if (output <=? i) && (i <? output + N.min size (len b - input)) then nth (N.to_nat (input + (i - output))) b x00 else nth (N.to_nat i) dest x00
  | _ => exists e, copy_in (host_fs h ls root) p dest input output size = (dest, Err e)
  end.
Proof.
  cbn. unfold host_copy_file. destruct (h (root ++ p)) as [[|b]|]; [eauto| |eauto]. eexists. split; [rewrite slice_len; reflexivity|].
  intros i. change (get (file_write dest output (slice b input size)) i = if (output <=? i) && (i <? output + N.min size (len b - input)) then get b (input + (i - output)) else get dest i).
  rewrite write_get, slice_len. destruct ((output <=? i) && (i <? output + N.min size (len b - input)))%bool eqn:E; [|reflexivity].
  apply andb_true_iff in E as (E1 & E2). apply N.leb_le in E1. apply N.ltb_lt in E2. apply get_slice. lia.
Qed.

(** ** Specs that are refused *)
Lemma mapM_bad {E A B} (f : A -> res E B) l x : In x l -> (forall y, f x <> Ok y) -> forall ys, mapM f l <> Ok ys.
Proof.
  intros Hin Hx. induction l as [|a l IH]; [contradiction|]. intros ys. cbn. destruct Hin as [->|Hin].
  - destruct (f x) eqn:Ex; cbn; try discriminate. exfalso. eapply Hx. reflexivity.
  - destruct (f a); cbn; try discriminate. destruct (mapM f l) eqn:El; cbn; try discriminate. exfalso. eapply IH; eauto.
Qed.
Lemma c110_lemma O toml (mk : host -> list str -> config -> res herr O) pk cwd a w p q b : b_map a = None ->
  canonicalize (w_fs w) cwd p = Ok q -> w_fs w q = Some (HFile b) ->
  (exists src, build_paths (w_fs w) cwd a = Ok (p, src)) ->
  (toml b = None \/ exists s rules k, toml b = Some s /\ s_rules s = Some rules /\ In (k, TOther) rules) ->
  fst (build_image toml mk pk cwd a w) = w /\ forall x, snd (build_image toml mk pk cwd a w) <> Ok x.
Proof.
  intros Hm Hq Hb (src & Hp) Hbad. unfold build_image, hbind, hres. rewrite Hp. cbn [bind]. unfold build_rules. rewrite Hm. cbn [bind].
  assert (Hex : exists_at (w_fs w) cwd p = true) by (unfold exists_at; rewrite Hq; reflexivity).
  rewrite Hex. unfold read_file. rewrite Hq. cbn [bind]. rewrite Hb. cbn [bind].
  destruct Hbad as [->|(s & rules & k & -> & Hr & Hin)]; [cbn; split; [reflexivity|discriminate]|]. cbn [ok_or bind]. unfold spec_rules. rewrite Hr.
  pose proof (mapM_bad (fun kv => match snd kv with TString v => Ok (fst kv, v) | TOther => Err HRefused end : res herr (str * str)) rules (k, TOther) Hin ltac:(intros y; cbn; discriminate)) as B.
  destruct (mapM _ rules) eqn:E; cbn; [exfalso; eapply B; eauto| | |]; (split; [reflexivity|discriminate]).
Qed.
