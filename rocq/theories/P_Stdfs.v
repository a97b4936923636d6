(** Proofs about M_Stdfs: packing a host directory (C77, C78). *)
From Verif Require Import M_Base M_Util M_Layout M_Read M_Img M_Dev M_Xfs M_Remap M_Cli M_Host M_Unpack M_Exiso M_Stdfs.
From Verif Require Import S_Avl S_Codec S_Table S_Read S_Img S_Dev S_Trie S_Xfs S_Check S_Cli S_Unpack S_Exiso S_Stdfs.
From Verif Require Import P_Base P_Tree P_Pack P_Image P_Packed P_More P_Cli P_Host P_Unpack P_Exiso.
From Verif Require Import M_Host.
From Coq Require Import Init.Byte.
Local Open Scope N_scope.

Lemma at_path_snoc t p cs n t' : at_path t p (FDir cs) -> In (n, t') cs -> at_path t (p ++ [n]) t'.
Proof.
  revert t; induction p as [|x p IH]; intros t H Hin; inversion H; subst; cbn [app].
  - apply (at_child cs n t' [] t'); auto. constructor.
  - econstructor; eauto.
Qed.

Lemma hosts_presents h ls root t : hosts h ls root t -> presents (host_fs h ls root) t.
Proof.
  intros (H1 & H2 & H3) p cs Hat. cbn [host_fs read_dir]. unfold host_read_dir. rewrite (H1 _ _ Hat), (H3 _ _ Hat). cbn [as_node].
  assert (G : forall l, incl l cs -> exists es, mapM (host_entry h (root ++ p)) (map fst l) = Ok es /\ Forall2 lists_as es l).
  { induction l as [|[n t'] l IH]; intros Hl; [exists []; split; [reflexivity|constructor]|]. destruct IH as (es & E1 & E2); [intros x Hx; apply Hl; right; exact Hx|].
    pose proof (H1 _ _ (at_path_snoc _ _ _ _ _ Hat (Hl _ (or_introl eq_refl)))) as E. cbn [map fst mapM]. unfold host_entry at 1. rewrite <- app_assoc, E. destruct t' as [b|cs']; cbn [as_node bind]; rewrite E1; cbn [bind].
    - eexists; split; [reflexivity|]. constructor; auto. repeat split.
    - eexists; split; [reflexivity|]. constructor; auto. repeat split. }
  apply (G cs). apply incl_refl.
Qed.
Lemma hosts_copies h ls root t : hosts h ls root t -> copies (host_fs h ls root) t.
Proof.
  intros (H1 & _) p b img off Hat. cbn [host_fs copy_in]. unfold host_copy_file. rewrite (H1 _ _ Hat). cbn [as_node].
  rewrite P_Dev.slice_full. reflexivity.
Qed.
Lemma hosts_hset h ls root t o x : ~ leads_to root o -> hosts h ls root t -> hosts (hset h o x) ls root t.
Proof.
  intros Ho (H1 & H2 & H3). assert (K : forall p, hset h o x (root ++ p) = h (root ++ p)) by (intros p; apply hset_neq; intros E; apply Ho; exists p; auto).
  unfold hosts; ssplit; [|intros p y; rewrite K; apply H2|exact H3]. intros p t' Hat. rewrite K. auto.
Qed.

Lemma no_dotdot_canonicalize h cwd i q : no_dotdot i -> canonicalize h cwd i = Ok q -> q = place cwd i.
Proof.
  intros Hd. unfold canonicalize. destruct (has_nul (pcomps i)); [discriminate|]. destruct i as [|c0 i0]; [discriminate|]. set (i := c0 :: i0) in *.
  pose proof (hlocate_case h (hstart cwd i) (pcomps i) Hd) as L. destruct (hlocate h (hstart cwd i) (pcomps i)) as [[d [c|]]|e|e|]; cbn [bind]; try discriminate.
  - destruct L as (j & Ej & ->). assert (E : (hstart cwd i ++ j) ++ [c] = place cwd i) by (unfold place; rewrite Ej, app_assoc; reflexivity).
    destruct (h ((hstart cwd i ++ j) ++ [c])) as [[|b]|]; [|destruct (dirlike i); [discriminate|]|discriminate]; intros H; injection H as <-; exact E.
  - destruct L as (L1 & ->). intros H; injection H as <-. unfold place. rewrite L1, app_nil_r. reflexivity.
Qed.
Lemma absolute_place h cwd i : no_dotdot i -> i <> [] -> absolute_path h cwd i = Ok (place cwd i).
Proof.
  intros Hd Hi. unfold absolute_path. destruct (canonicalize h cwd i) as [q| | |] eqn:E; [apply no_dotdot_canonicalize in E; auto; subst; reflexivity| | |];
    unfold path_absolute; destruct i; try congruence; reflexivity.
Qed.
Lemma ready_open cwd i w : ready_for_file cwd i w -> open_trunc cwd i w = (mkWorld (hset (w_fs w) (place cwd i) (HFile [])) None, Ok (place cwd i)).
Proof.
  intros (HL & HR & Hd & Hn & Hdl & dir & n & Hp & Hdir & Hf).
  destruct (split_last_case (pcomps i)) as [(E & _)|(j & c & E & _)]; [apply no_comps_dirlike in E; congruence|].
  assert (Hi : i <> []) by (intros ->; discriminate).
  unfold place in *. rewrite E in *. rewrite app_assoc in Hp. apply app_inj_tail in Hp as (Hp & ->).
  assert (Hnul : has_nul (j ++ [n]) = false) by (rewrite <- E; apply no_nul; auto).
  rewrite (open_new cwd i j n w Hi E Hdl); auto.
  - unfold no_dotdot in Hd. rewrite E in Hd. exact Hd.
  - apply rooted_dirs_on; auto. rewrite Hp. exact Hdir.
  - rewrite app_assoc, Hp. exact Hf.
Qed.

Lemma pack_path_run cwd pk p i w n : w_fs w p = Some n -> ready_for_file cwd i w -> ~ leads_to p (place cwd i) ->
  cmd_pack_path cwd pk p i w = (mkWorld (packed_to pk (w_fs w) p (place cwd i)) None, snd (pk (hset (w_fs w) (place cwd i) (HFile [])) p)).
Proof.
  intros Hp HW Hn. pose proof (ready_open _ _ _ HW) as Ho. destruct HW as (HL & HR & Hd & _ & Hdl & _). assert (Hi : i <> []) by (intros ->; discriminate).
  unfold cmd_pack_path. unfold hbind at 1, hres at 1. rewrite Hp. cbn [ok_or]. unfold hbind at 1, hres at 1. rewrite (absolute_place _ _ _ Hd Hi). cbn [bind].
  assert (E1 : hpath_eqb (place cwd i) p = false) by (destruct (hpath_eqb_spec (place cwd i) p) as [E|]; auto; destruct Hn; exists []; rewrite app_nil_r; auto).
  rewrite E1. assert (E2 : starts_with (place cwd i) p = false) by (destruct (starts_with (place cwd i) p) eqn:E; auto; apply starts_with_spec in E; destruct (Hn E)).
  assert (E3 : (if exists_at (w_fs w) cwd i then Ok tt else Ok tt : res herr unit) = Ok tt) by (destruct (exists_at _ _ _); reflexivity). rewrite E3. clear E3.
  unfold hbind at 1, hres at 1. rewrite (absolute_place _ _ _ Hd Hi). cbn [bind]. rewrite E2. unfold hbind. rewrite Ho. unfold packed_to. cbn [w_fs].
  destruct (pk (hset (w_fs w) (place cwd i) (HFile [])) p) as [b r]. reflexivity.
Qed.
Lemma default_dir h cwd d n : Forall unix_name cwd -> unix_name n -> default_image_path h cwd (d ++ [n]) true = Ok (n ++ [46; 105; 115; 111]).
Proof.
  intros Hc Hn. unfold default_image_path. rewrite split_last_snoc, is_dotdot_false by apply Hn. cbn [ok_or bind]. unfold with_extension. change ([DOT] ++ [105; 115; 111]) with ([46; 105; 115; 111] : str).
  destruct (exists_at h cwd (n ++ [46; 105; 115; 111])); [|reflexivity].
  assert (Hs : ~ In 47 n) by apply Hn. assert (Ec : pcomps (n ++ [46; 105; 115; 111]) = [n ++ [46; 105; 115; 111]]).
  { apply (pcomps_dotted n [105; 115; 111]); auto; [intros [E|[E|[E|[]]]]; discriminate|cbn; lia]. }
  rewrite absolute_place; [|unfold no_dotdot; rewrite Ec; intros [E|[]]; apply (f_equal (@length N)) in E; rewrite app_length in E; cbn [length] in E; lia|destruct n; discriminate].
  cbn [bind]. unfold place. rewrite Ec. destruct (hpath_eqb_spec (hstart cwd (n ++ [46; 105; 115; 111]) ++ [n ++ [46; 105; 115; 111]]) (d ++ [n])) as [E|]; [|reflexivity].
  apply app_inj_tail in E as (_ & E). apply (f_equal (@length N)) in E. rewrite app_length in E. cbn [length] in E. lia.
Qed.

Lemma pack_dir_run cwd pk src image i w p : Forall unix_name cwd -> canonicalize (w_fs w) cwd src = Ok p -> w_fs w p = Some HDir -> output_for p image i ->
  ready_for_file cwd i w -> ~ leads_to p (place cwd i) ->
  cmd_pack cwd pk src image w = (mkWorld (packed_to pk (w_fs w) p (place cwd i)) None, snd (pk (hset (w_fs w) (place cwd i) (HFile [])) p)).
Proof.
  intros Hcwd Hc Hp Hi HW Hn. pose proof (canonical_names _ _ _ _ Hcwd Hc) as Hu. unfold cmd_pack. unfold hbind at 1, hres at 1, existing. rewrite Hc. cbn [bind]. rewrite Hp. cbn [ok_or bind is_hdir].
  unfold hbind, hres. destruct Hi as [->|(-> & d & n & -> & ->)]; [apply (pack_path_run cwd pk p i w HDir Hp HW Hn)|].
  apply Forall_app in Hu as (_ & Hu). rewrite default_dir by (auto; apply Forall_inv in Hu; exact Hu). apply (pack_path_run cwd pk _ _ w HDir Hp HW Hn).
Qed.

Lemma std_packer_run m h ls p t : source t -> hosts h ls p t ->
  exists img o, returns (fun fuel => std_packer ls fuel m h p) (img, o)
   /\ (representable m t /\ o = Ok tt /\ packs m t img \/ ~ representable m t /\ o = Err HPack).
Proof.
  intros HS HH. destruct (c19_lemma m t (host_fs h ls p) [] HS (hosts_presents _ _ _ _ HH) (hosts_copies _ _ _ _ HH)) as (img & evs' & o & (k & R) & Ho).
  assert (Hp : h p = Some HDir).
  { destruct HH as (H1 & _). specialize (H1 [] t (at_here t)). rewrite app_nil_r in H1. rewrite H1. destruct HS as (HS & _). destruct t; [discriminate|reflexivity]. }
  exists img, (match o with Ok _ => Ok tt | Err _ => Err HPack | Panic p => Panic p | OutOfFuel => OutOfFuel end). split.
  - exists k. intros fuel Hf. unfold std_packer. rewrite Hp, (R fuel Hf). reflexivity.
  - destruct Ho as [(H1 & ->)|(H1 & e & -> & _)]; [left|right; auto]. ssplit; auto.
    exists (host_fs h ls p), k, [], evs'. ssplit; [apply hosts_presents; auto|eapply hosts_copies; eauto|apply R; lia].
Qed.

Lemma c77_lemma m ls cwd src image i w p t : Forall unix_name cwd -> canonicalize (w_fs w) cwd src = Ok p -> hosts (w_fs w) ls p t -> source t ->
  output_for p image i -> ready_for_file cwd i w -> ~ leads_to p (place cwd i) ->
  exists w' o img, returns (fun fuel => cmd_pack cwd (std_packer ls fuel m) src image w) (w', o)
   /\ w_left w' = None /\ w_fs w' (place cwd i) = Some (HFile img) /\ (forall q, q <> place cwd i -> w_fs w' q = w_fs w q)
   /\ (representable m t /\ o = Ok tt /\ packs m t img \/ ~ representable m t /\ o = Err HPack).
Proof.
  intros Hcwd Hc HH HS Hi HW Hn. destruct (std_packer_run m _ ls p t HS (hosts_hset _ _ _ _ (place cwd i) (HFile []) Hn HH)) as (img & o & (k & R) & Ho).
  assert (Hp : w_fs w p = Some HDir).
  { destruct HH as (H1 & _). specialize (H1 [] t (at_here t)). rewrite app_nil_r in H1. rewrite H1. destruct HS as (HS & _). destruct t; [discriminate|reflexivity]. }
  exists (mkWorld (hset (hset (w_fs w) (place cwd i) (HFile [])) (place cwd i) (HFile img)) None), o, img. cbn [w_fs w_left]. ssplit; auto.
  - exists k. intros fuel Hf. rewrite (pack_dir_run cwd _ src image i w p); auto. unfold packed_to. rewrite (R fuel Hf). reflexivity.
  - apply hset_eq.
  - intros q Hq. rewrite !hset_neq by auto. reflexivity.
Qed.

Lemma leads_app a b : leads_to a (a ++ b).
Proof. exists b. reflexivity. Qed.
Lemma leads_trans a b c : leads_to a b -> leads_to b c -> leads_to a c.
Proof. intros (x & ->) (y & ->). exists (x ++ y). rewrite app_assoc. reflexivity. Qed.
Lemma below_leads a b : strictly_below a b -> leads_to a b.
Proof. intros (n & x & ->). exists (n :: x). reflexivity. Qed.
Lemma leads_two a b c : leads_to a c -> leads_to b c -> leads_to a b \/ leads_to b a.
Proof.
  intros (x & ->) (y & E). destruct (prefix_two _ _ _ _ E) as [(z & ->)|(n & z & ->)]; [right; exists z; reflexivity|left; exists (n :: z); reflexivity].
Qed.

(** A new file elsewhere does not matter to unpacking. *)
Lemma still_ready cwd i dest t w w1 : ready_for_file cwd i w -> ready_for cwd dest t w -> w_left w1 = None -> (forall q, q <> place cwd i -> w_fs w1 q = w_fs w q) ->
  apart (place cwd i) (place cwd dest) -> ready_for cwd dest t w1.
Proof.
  intros HW HD L1 F2 (C1 & C2). destruct HD as (D1 & D2 & D3 & D4 & D5 & (D6 & D7) & D8). destruct HW as (_ & _ & _ & _ & _ & dir & n & Hp & Hdir & Hf). unfold ready_for.
  assert (K : forall q, leads_to q (place cwd dest) -> w_fs w1 q = w_fs w q) by (intros q Hq; apply F2; intros ->; apply C1, Hq).
  ssplit; auto.
  - split; [rewrite F2; [apply D2|rewrite Hp; destruct dir; discriminate]|]. intros q x Hq. destruct (hpath_eqb_spec (q ++ [x]) (place cwd i)) as [E|E].
    + rewrite Hp in E. apply app_inj_tail in E as (-> & ->). rewrite F2; [exact Hdir|]. intros E. rewrite Hp in E. apply (f_equal (@length str)) in E. rewrite app_length in E. cbn [length] in E. lia.
    + rewrite F2 in Hq by auto. destruct (hpath_eqb_spec q (place cwd i)) as [->|E']; [|rewrite F2 by auto; apply D2 in Hq; exact Hq].
      apply D2 in Hq. rewrite Hp in Hq. congruence.
  - rewrite F2; [exact D3|]. intros E. rewrite Hp in E. congruence.
  - split; [intros q Hq; rewrite K by auto; auto|]. intros q Hq. rewrite F2; [auto|]. intros ->. apply C2, below_leads, Hq.
  - destruct D8 as [D8|D8]; [left; exact D8|right]. rewrite F2; [exact D8|]. intros E. apply C1. rewrite E. exists []. rewrite app_nil_r. reflexivity.
Qed.
(** A file that has been created is found. *)
Lemma ready_canonical cwd i w h b : ready_for_file cwd i w -> (forall q, q <> place cwd i -> h q = w_fs w q) -> h (place cwd i) = Some (HFile b) -> canonicalize h cwd i = Ok (place cwd i).
Proof.
  intros (HL & HR & Hd & Hn & Hdl & dir & n & Hp & Hdir & Hf) F2 F1.
  destruct (split_last_case (pcomps i)) as [(E & _)|(j & c & E & _)]; [apply no_comps_dirlike in E; congruence|].
  assert (Hi : i <> []) by (intros ->; discriminate). assert (Hnul : has_nul (pcomps i) = false) by (apply no_nul; auto).
  unfold canonicalize. rewrite Hnul. destruct i as [|c0 i0]; [congruence|]. set (i := c0 :: i0) in *.
  unfold place in *. rewrite E in *. rewrite app_assoc in Hp. apply app_inj_tail in Hp as (Hp & ->).
  assert (D : dirs_on (w_fs w) (hstart cwd i) j) by (apply rooted_dirs_on; auto; rewrite Hp; exact Hdir).
  rewrite hlocate_dirs; [|unfold no_dotdot in Hd; rewrite E in Hd; exact Hd|].
  - cbn [bind]. rewrite <- app_assoc, F1, Hdl. reflexivity.
  - intros pre suf Ej Hpre. rewrite F2; [exact (D pre suf Ej Hpre)|]. intros Q. rewrite Ej in Q. apply (f_equal (@length str)) in Q. rewrite !app_length in Q. cbn [length] in Q. lia.
Qed.

Lemma c78_lemma m ls cwd src image i dest w p t : Forall unix_name cwd -> canonicalize (w_fs w) cwd src = Ok p -> hosts (w_fs w) ls p t -> source t -> representable m t -> unix_tree t ->
  output_for p image i -> ready_for_file cwd i w -> ready_for cwd dest t w ->
  apart p (place cwd i) -> apart p (place cwd dest) -> apart (place cwd i) (place cwd dest) ->
  exists w1 img w2, returns (fun fuel => cmd_pack cwd (std_packer ls fuel m) src image w) (w1, Ok tt)
   /\ w_fs w1 (place cwd i) = Some (HFile img)
   /\ returns (fun fuel => cmd_unpack fuel cwd i img (Some dest) w1) (w2, Ok tt)
   /\ (forall q, w_fs w2 (place cwd dest ++ q) = w_fs w (p ++ q)) /\ untouched p (w_fs w) (w_fs w2).
Proof.
  intros Hcwd Hc HH HS HRep HU Hi HW HD (A1 & A2) (B1 & B2) (C1 & C2).
  destruct (c77_lemma m ls cwd src image i w p t Hcwd Hc HH HS Hi HW A1) as (w1 & o & img & R1 & L1 & F1 & F2 & [(_ & -> & HP)|(HN & _)]); [|destruct (HN HRep)].
  pose proof (still_ready cwd i dest t w w1 HW HD L1 F2 (conj C1 C2)) as HD1.
  destruct (c48_lemma cwd i img dest t w1 (packed_is_image m t img HS HP) HU HD1) as (w2 & R2 & (G1 & G2 & G3 & G4)).
  exists w1, img, w2. ssplit; auto.
  - intros q. destruct HH as (H1 & H2 & _). destruct (w_fs w (p ++ q)) as [x|] eqn:E.
    + destruct (H2 _ _ E) as (t' & Hat). destruct (G1 _ _ Hat) as (y & -> & ->). rewrite (H1 _ _ Hat) in E. exact E.
    + destruct (w_fs w2 (place cwd dest ++ q)) as [y|] eqn:Ey; [|reflexivity]. destruct (G2 _ _ Ey) as (t' & Hat). rewrite (H1 _ _ Hat) in E. discriminate.
  - intros q Hq. rewrite G4.
    + apply F2. intros ->. apply A1, Hq.
    + intros Hb. apply below_leads in Hb. destruct (leads_two _ _ _ Hq Hb); auto.
    + intros Hl. apply B1. eapply leads_trans; eauto.
Qed.

(** A host with nothing but the tree [t] in the directory [s]. *)
Definition planted (s : str) (t : ftree) : world :=
  mkWorld (fun q => match q with
                    | [] => Some HDir
                    | n :: q => if str_eqb n s then match lookup_tree q t with Some t' => Some (as_node t') | None => None end else None
                    end) None.
Definition planted_ls (t : ftree) : lister := fun q =>
  match q with [] => [] | _ :: q => match lookup_tree q t with Some (FDir cs) => map fst cs | _ => [] end end.

Lemma str_eqb_same s : str_eqb s s = true.
Proof. apply str_eqb_spec. reflexivity. Qed.
Lemma str_eqb_other a b : a <> b -> str_eqb a b = false.
Proof. intros H. destruct (str_eqb a b) eqn:E; [apply str_eqb_spec in E; contradiction|reflexivity]. Qed.
Lemma planted_hosts s t : proper t -> hosts (w_fs (planted s t)) (planted_ls t) [s] t.
Proof.
  intros HP. unfold hosts, planted, planted_ls. cbn [w_fs app]. rewrite str_eqb_same. ssplit.
  - intros p t' H. apply lookup_at in H; auto. rewrite H. reflexivity.
  - intros p x H. destruct (lookup_tree p t) as [t'|] eqn:E; [|discriminate]. apply lookup_at in E; eauto.
  - intros p cs H. apply lookup_at in H; auto. rewrite H. reflexivity.
Qed.
Lemma at_parent t q n t' : at_path t (q ++ [n]) t' -> exists cs, at_path t q (FDir cs).
Proof.
  revert t; induction q as [|x q IH]; intros t H; inversion H; subst.
  - eexists. constructor.
  - match goal with H : at_path _ (q ++ [n]) _ |- _ => apply IH in H as (cs' & Hc) end. exists cs'. econstructor; eauto.
Qed.
Lemma planted_rooted s t : proper t -> is_fdir t = true -> rooted (w_fs (planted s t)).
Proof.
  intros HP HT. split; [reflexivity|]. intros q n. cbn [planted w_fs]. destruct q as [|x q]; [reflexivity|]. cbn [app]. destruct (str_eqb x s); [|congruence].
  destruct (lookup_tree (q ++ [n]) t) as [t'|] eqn:E; [|congruence]. intros _. apply lookup_at in E; auto. apply at_parent in E as (cs & E). apply lookup_at in E; auto. rewrite E. reflexivity.
Qed.
Lemma planted_canonical s t : unix_name s -> is_fdir t = true -> canonicalize (w_fs (planted s t)) [] s = Ok [s].
Proof.
  intros Us HT. unfold canonicalize. rewrite (pcomps_name s Us). pose proof (names_nul [s] ltac:(constructor; auto)) as ->. destruct s as [|c0 s0] eqn:Es; [destruct Us; congruence|]. rewrite <- Es in *.
  change [s] with ([] ++ [s]). rewrite hlocate_dirs.
  - cbn [bind]. unfold hstart. assert (E : (if is_absolute s then @nil str else []) = []) by (destruct (is_absolute s); reflexivity). rewrite E. cbn [app planted w_fs]. rewrite str_eqb_same. cbn [lookup_tree].
    destruct t; [discriminate|]. reflexivity.
  - apply names_dotdot. constructor; auto.
  - intros pre suf E Hp. destruct pre; [congruence|discriminate].
Qed.
Lemma place_name n : unix_name n -> place [] n = [n].
Proof. intros Un. unfold place, hstart. rewrite (pcomps_name n Un). destruct (is_absolute n); reflexivity. Qed.
Lemma planted_ready_file s t i : proper t -> is_fdir t = true -> unix_name i -> i <> s -> ready_for_file [] i (planted s t).
Proof.
  intros HP HT Ui Hi. unfold ready_for_file. rewrite place_name by auto. ssplit.
  - reflexivity.
  - apply planted_rooted; auto.
  - unfold no_dotdot. rewrite pcomps_name by auto. intros [E|[]]. destruct Ui as (_ & _ & Ui & _). congruence.
  - apply Ui.
  - apply name_dirlike; auto.
  - exists [], i. ssplit; auto. cbn. rewrite str_eqb_other by auto. discriminate.
Qed.
Lemma planted_ready s t o : proper t -> is_fdir t = true -> t <> FDir [] -> unix_name o -> o <> s -> ready_for [] o t (planted s t).
Proof.
  intros HP HT Hne Uo Ho. unfold ready_for. rewrite place_name by auto. ssplit; auto.
  - apply planted_rooted; auto.
  - unfold no_dotdot. rewrite pcomps_name by auto. intros [E|[]]. destruct Uo as (_ & _ & Uo & _). congruence.
  - apply Uo.
  - split; intros q; cbn.
    + intros (x & Ex). destruct q as [|y q]; [right; reflexivity|]. cbn in Ex. injection Ex as <- Ex. rewrite str_eqb_other by auto. left. reflexivity.
    + intros (a & p & ->). cbn. rewrite str_eqb_other by auto. reflexivity.
Qed.
Lemma apart_names (a b : str) : a <> b -> apart [a] [b].
Proof. intros H. split; intros (x & E); cbn in E; congruence. Qed.
