(** Proofs of C171. *)
From Verif Require Import M_Base M_Util M_Layout M_Read M_Img M_Trie M_Remap M_Special.
From Verif Require Import S_Read S_Img S_Special S_Remap S_Mixed.
From Verif Require Import P_Base P_Special P_Remap P_Overlay P_Twice.
From Coq Require Import Init.Byte Lia.
Local Open Scope N_scope.

(** ** What can be listed *)
Lemma listed_or_not t : ~ unlistable t -> exists f, listable t f.
Proof.
  induction t as [b|n|cs IH| |] using raw_ind'; intros H.
  - exists (FFile b). constructor.
  - exists (FFile (fill n x00)). replace (RSealed n) with (RSealed (len (fill n x00))) by (rewrite len_fill; reflexivity). constructor.
  - assert (G : exists fs, Forall2 (fun r c => fst r = Some (fst c) /\ listable (snd r) (snd c)) cs fs).
    { assert (K : forall rs, incl rs cs -> exists fs, Forall2 (fun r c => fst r = Some (fst c) /\ listable (snd r) (snd c)) rs fs).
      { induction rs as [|[n t] rs IHr]; intros Hi; [exists []; constructor|].
        destruct IHr as [fs Hfs]; [intros x Hx; apply Hi; right; exact Hx|].
        assert (Hin : In (n, t) cs) by (apply Hi; left; reflexivity).
        destruct n as [n|]; [|exfalso; apply H; eapply ul_name; exact Hin].
        rewrite Forall_forall in IH. destruct (IH _ Hin) as [f Hf]; [cbn [snd]; intros U; apply H; eapply ul_below; eauto|].
        exists ((n, f) :: fs). constructor; [split; [reflexivity|exact Hf]|exact Hfs]. }
      apply K, incl_refl. }
    destruct G as [fs G]. exists (FDir fs). constructor. exact G.
  - exfalso. apply H. constructor.
  - exfalso. apply H. constructor.
Qed.
Lemma unlistable_not t : unlistable t -> forall f, ~ listable t f.
Proof.
  assert (K : forall (rs : list (option str * raw)) (cs : list (str * ftree)) x, Forall2 (fun r c => fst r = Some (fst c) /\ listable (snd r) (snd c)) rs cs -> In x rs -> exists n f, fst x = Some n /\ listable (snd x) f).
  { intros rs cs x H. induction H as [|r c rs cs [H1 H2] _ IH]; intros Hx; [destruct Hx|]. destruct Hx as [<-|Hx]; eauto. }
  intros H. induction H as [| |cs t Hi|cs n t Hi _ IH]; intros f L; inversion L as [| |? ? HF]; subst.
  - destruct (K _ _ _ HF Hi) as (n & f & E & _). discriminate.
  - destruct (K _ _ _ HF Hi) as (n' & f & _ & E). exact (IH f E).
Qed.

(** ** The walk *)
Lemma visit_dirs keys dir parent listing : forall dirs ms p, In p (map fst dirs) -> In p (map fst (fst (fold_left (visit keys dir parent) listing (dirs, ms)))).
Proof.
  induction listing as [|e l IH]; intros dirs ms p H; [exact H|]. cbn [fold_left visit]. destruct (f_type e); apply IH; [exact H|right; exact H].
Qed.
Lemma visit_new keys dir parent listing : forall dirs ms e, In e listing -> f_type e = TDirectory ->
  In (from_base dir (f_name e)) (map fst (fst (fold_left (visit keys dir parent) listing (dirs, ms)))).
Proof.
  induction listing as [|e' l IH]; intros dirs ms e H Hd; [destruct H|]. cbn [fold_left visit]. destruct H as [->|H].
  - rewrite Hd. apply visit_dirs. left. reflexivity.
  - destruct (f_type e'); apply IH; auto.
Qed.
Lemma walk_lists {D} (fs : fsys D) keys fuel : forall dirs ms l, walk_host keys fuel fs dirs ms = Ok l ->
  forall p q, In p (map fst dirs) -> seen_from fs p q -> exists es, read_dir fs q = Ok es.
Proof.
  induction fuel as [|fuel IH]; intros [|[dir parent] dirs] ms l H p q Hp Hq; try (destruct Hp; fail); cbn [walk_host] in H; try discriminate.
  destruct (read_dir fs dir) as [es|e|e|] eqn:Er; cbn [map_err bind] in H; try discriminate.
  pose proof (visit_dirs keys dir parent es dirs ms) as V1. pose proof (visit_new keys dir parent es dirs ms) as V2.
  destruct (fold_left (visit keys dir parent) es (dirs, ms)) as [dirs' ms'] eqn:Ev. cbn [fst] in V1, V2.
  specialize (IH _ _ _ H). destruct Hp as [<-|Hp]; [|apply (IH p q); auto].
  inversion Hq as [|? es' e ? G1 G2 G3 G4]; subst; [eauto|]. cbn [fst] in *. rewrite Er in G1. injection G1 as <-. apply (IH _ q) in G4; [exact G4|]. apply V2; auto.
Qed.
Lemma walk_mono {D} (fs : fsys D) keys fuel : forall k dirs ms, walk_host keys fuel fs dirs ms <> OutOfFuel -> walk_host keys (fuel + k) fs dirs ms = walk_host keys fuel fs dirs ms.
Proof.
  induction fuel as [|fuel IH]; intros k [|[dir parent] dirs] ms H; cbn [walk_host Nat.add] in *; try (destruct k; reflexivity); [destruct H; reflexivity|].
  destruct (read_dir fs dir) as [es|e|e|]; cbn [map_err bind] in *; auto. destruct (fold_left _ es _). apply IH. exact H.
Qed.

Lemma rules_compile wax cfg keys : rules wax cfg keys -> compile wax cfg = Ok keys.
Proof.
  unfold rules, compile. intros H. induction H as [|r k cfg keys [E W] _ IH]; [reflexivity|]. cbn [mapM]. unfold BANG. rewrite W. cbn [ok_or bind]. unfold BANG in IH. rewrite IH.
  destruct k as [k g]. cbn [fst snd bind] in *. subst. reflexivity.
Qed.

(** ** It ends *)
Fixpoint weight (t : raw) : nat := match t with RDir cs => S (fold_right (fun c n => (weight (snd c) + n)%nat) O cs) | _ => 1%nat end.
Definition weights (root : raw) (ps : list path) : nat :=
  fold_right (fun p n => ((match lookup_raw p root with Some t => weight t | None => 1 end) + n)%nat) O ps.
Definition good (root : raw) (p : path) : Prop := exists t, lookup_raw p root = Some t /\ raw_proper t.

Lemma visit_weight root keys dir parent cs : lookup_raw dir root = Some (RDir cs) -> raw_proper (RDir cs) ->
  forall rs es, incl rs cs -> Forall2 (fun a b => raw_entry a = Ok b) rs es -> forall dirs ms,
  Forall (good root) (map fst dirs) ->
  let r := fold_left (visit keys dir parent) es (dirs, ms) in
  (weights root (map fst (fst r)) <= fold_right (fun c n => (weight (snd c) + n)%nat) O rs + weights root (map fst dirs))%nat
  /\ Forall (good root) (map fst (fst r)).
Proof.
  intros Hl Hp rs es Hi H. induction H as [|[n t] e rs es Hre _ IH]; intros dirs ms Hg; cbn [fold_left fold_right]; [cbn [fst]; split; [apply Nat.le_refl|exact Hg]|].
  assert (Hin : In (n, t) cs) by (apply Hi; left; reflexivity).
  assert (Hi' : incl rs cs) by (intros x Hx; apply Hi; right; exact Hx). specialize (IH Hi'). cbn [snd].
  unfold raw_entry in Hre. cbn [fst snd] in Hre. unfold ok_or in Hre. destruct n as [n|]; [|destruct t; discriminate].
  pose proof (raw_child cs n t Hp Hin) as Hc.
  assert (Hpt : raw_proper t). { inversion Hp as [? _ Ha|? Hn]; subst; [|destruct (Hn _ eq_refl)]. rewrite Forall_forall in Ha. exact (Ha _ Hin). }
  assert (Hlk : lookup_raw (from_base dir n) root = Some t) by (change (from_base dir n) with (dir ++ [n]); rewrite (lookup_raw_app dir [n] root _ Hl); exact Hc).
  cbn [visit]. destruct t; cbn [bind] in Hre; try discriminate; injection Hre as <-; cbn [f_type f_name].
  - edestruct IH as [A B]; [exact Hg|]. split; [|exact B]. eapply Nat.le_trans; [exact A|]. cbn [snd weight]. lia.
  - edestruct IH as [A B]; [exact Hg|]. split; [|exact B]. eapply Nat.le_trans; [exact A|]. lia.
  - edestruct IH as [A B]; [|split; [eapply Nat.le_trans; [exact A|]|exact B]].
    + cbn [map fst]. constructor; [eexists; eauto|exact Hg].
    + cbn [map fst weights fold_right]. fold (weights root (map fst dirs)). rewrite Hlk. lia.
  - edestruct IH as [A B]; [|split; [eapply Nat.le_trans; [exact A|]|exact B]].
    + cbn [map fst]. constructor; [eexists; eauto|exact Hg].
    + cbn [map fst weights fold_right]. fold (weights root (map fst dirs)). rewrite Hlk. lia.
Qed.
Lemma walk_ends root keys fuel : forall dirs ms, Forall (good root) (map fst dirs) -> (weights root (map fst dirs) <= fuel)%nat ->
  match walk_host keys fuel (raw_fs root) dirs ms with Ok _ | Err (FilesystemError _) => True | _ => False end.
Proof.
  induction fuel as [|fuel IH]; intros [|[dir parent] dirs] ms Hg Hw; cbn [walk_host]; auto; cbn [map fst weights fold_right] in Hw; inversion Hg as [|? ? [t [Hl Hp]] Hg']; subst; rewrite Hl in Hw.
  - destruct t; cbn [weight] in Hw; lia.
  - fold (weights root (map fst dirs)) in Hw. cbn [raw_fs read_dir]. unfold raw_read_dir. cbn [fst] in Hl. rewrite Hl. destruct t as [b|n|cs| |]; cbn [map_err bind]; auto.
    destruct (mapM raw_entry cs) as [es|e|e|] eqn:Em; cbn [map_err bind]; auto.
    + apply mapM_all in Em. destruct (visit_weight root keys dir parent cs Hl Hp cs es (incl_refl _) Em dirs ms Hg') as [A B].
      destruct (fold_left (visit keys dir parent) es (dirs, ms)) as [dirs' ms']. cbn [fst] in A, B. apply IH; [exact B|]. cbn [weight] in Hw. lia.
    + clear - Em. exfalso. induction cs as [|[n t] cs IHc]; cbn [mapM] in Em; [discriminate|].
      unfold raw_entry at 1 in Em. cbn [fst snd] in Em. destruct t, n; cbn [bind ok_or] in Em; try discriminate; destruct (mapM raw_entry cs); cbn [bind] in Em; try discriminate; injection Em as ->; auto.
    + clear - Em. exfalso. induction cs as [|[n t] cs IHc]; cbn [mapM] in Em; [discriminate|].
      unfold raw_entry at 1 in Em. cbn [fst snd] in Em. destruct t, n; cbn [bind ok_or] in Em; try discriminate; destruct (mapM raw_entry cs); cbn [bind] in Em; try discriminate; auto.
Qed.

Lemma walk_listable keys fuel t l : raw_proper t -> walk_host keys fuel (raw_fs t) [([], None)] [] = Ok l -> exists f, listable t f.
Proof.
  intros HP H.
  assert (HR : forall q, seen (raw_fs t) q -> exists es, raw_read_dir t q = Ok es).
  { intros q Hq. eapply (walk_lists (raw_fs t)); [exact H|left; reflexivity|apply seen_start; exact Hq]. }
  destruct (HR [] (seen_root _)) as (es0 & He0). unfold raw_read_dir in He0. cbn [lookup_raw] in He0. destruct t as [b|n|cs| |]; try discriminate.
  exact (raw_listable (RDir cs) HR (RDir cs) [] HP eq_refl (seen_root _)).
Qed.
Lemma c171_success_lemma fuel m wax t cfg tr : raw_proper t -> remap_new fuel m wax (raw_fs t) cfg = Ok tr -> ~ unlistable t.
Proof.
  intros HP H U. unfold remap_new in H. destruct (compile wax cfg) as [keys| | |]; cbn [bind] in H; try discriminate.
  destruct (walk_host keys fuel (raw_fs t) [([], None)] []) as [l| | |] eqn:E; cbn [bind] in H; try discriminate.
  destruct (walk_listable _ _ _ _ HP E) as [f Hf]. exact (unlistable_not t U f Hf).
Qed.
Lemma c171_special_lemma m wax t cfg keys : raw_proper t -> unlistable t -> rules wax cfg keys ->
  exists e, returns (fun fuel => remap_new fuel m wax (raw_fs t) cfg) (Err (FilesystemError e)).
Proof.
  intros HP U C. apply rules_compile in C.
  pose proof (walk_ends t keys (weight t) [([], None)] []) as W.
  assert (G : Forall (good t) (map fst [([] : path, None : option path)])) by (constructor; [exists t; auto|constructor]).
  specialize (W G). assert (L : (weights t (map fst [([] : path, None : option path)]) <= weight t)%nat) by (cbn; lia). specialize (W L).
  destruct (walk_host keys (weight t) (raw_fs t) [([], None)] []) as [l|e|p|] eqn:E; try (destruct W; fail).
  - destruct (walk_listable _ _ _ _ HP E) as [f Hf]. destruct (unlistable_not t U f Hf).
  - destruct e as [|i r k|e]; try (destruct W; fail). exists e. exists (weight t). intros fuel Hf. unfold remap_new. rewrite C. cbn [bind].
    replace fuel with (weight t + (fuel - weight t))%nat by lia. rewrite walk_mono by (rewrite E; discriminate). rewrite E. reflexivity.
Qed.

(** ** The same as a tree *)
Lemma listable_lookup p : forall t f, listable t f ->
  match lookup_raw p t, lookup_tree p f with Some t', Some f' => listable t' f' | None, None => True | _, _ => False end.
Proof.
  induction p as [|s p IH]; intros t f H; cbn [lookup_raw lookup_tree]; [exact H|].
  inversion H as [| |rs cs HF]; subst; auto. clear H.
  induction HF as [|[n t] [n' f] rs cs [E L] _ IHl]; cbn [find]; [exact I|]. cbn [fst snd] in *. subst n. cbn [is_name].
  destruct (str_eqb s n'); [apply IH; exact L|exact IHl].
Qed.
Lemma listable_read t f : listable t f -> forall p, raw_read_dir t p = std_read_dir f p.
Proof.
  intros H p. unfold raw_read_dir, std_read_dir. pose proof (listable_lookup p t f H) as L.
  destruct (lookup_raw p t) as [t'|], (lookup_tree p f) as [f'|]; try (destruct L; fail); [|reflexivity].
  inversion L as [| |rs cs HF]; subst; try reflexivity. apply mapM_intro. clear - HF.
  induction HF as [|[n t] [n' f] rs cs [E L] _ IH]; cbn [map]; constructor; [|exact IH]. cbn [fst snd] in *. subst n. unfold raw_entry, entry_of. cbn [fst snd].
  inversion L; subst; reflexivity.
Qed.
Lemma listable_copy t f : listable t f -> forall p, (forall n, lookup_raw p t <> Some (RSealed n)) -> forall d i o n, raw_copy_file t p d i o n = std_copy_file f p d i o n.
Proof.
  intros H p N d i o n. unfold raw_copy_file, std_copy_file. pose proof (listable_lookup p t f H) as L.
  destruct (lookup_raw p t) as [t'|], (lookup_tree p f) as [f'|]; try (destruct L; fail); [|reflexivity].
  inversion L; subst; try reflexivity. exfalso. eapply N. reflexivity.
Qed.
Lemma c171_listable_lemma t f : listable t f ->
  (forall fuel m wax cfg, remap_new fuel m wax (raw_fs t) cfg = remap_new fuel m wax (std_fs f) cfg)
  /\ forall tr, (forall p, read_dir (overlay tr (raw_fs t)) p = read_dir (overlay tr (std_fs f)) p)
     /\ (openable t tr -> forall fuel m W s, create_xdvdfs_image fuel m W (overlay tr (raw_fs t)) s = create_xdvdfs_image fuel m W (overlay tr (std_fs f)) s).
Proof.
  intros H. split; [|intros tr; split; [reflexivity|]].
  - intros fuel m wax cfg. unfold remap_new. destruct (compile wax cfg) as [keys| | |]; cbn [bind]; auto.
    assert (W : forall fuel dirs ms, walk_host keys fuel (raw_fs t) dirs ms = walk_host keys fuel (std_fs f) dirs ms); [|rewrite W; reflexivity].
    intros k; induction k as [|n IH]; intros [|[dir par] dirs] ms; try reflexivity. cbn [walk_host raw_fs std_fs read_dir]. rewrite (listable_read t f H).
    destruct (map_err _ _); cbn [bind]; auto. destruct (fold_left _ _ _). apply IH.
  - intros O fuel m W s. apply create_alike. split; [reflexivity|]. intros p d i o n. cbn [overlay copy_in].
    destruct (trie_get tr p) as [[e|]| | |] eqn:E; try reflexivity. apply listable_copy; [exact H|]. intros k. exact (O p e k E).
Qed.
Lemma c171_listing_lemma t : (unlistable t -> ~ exists f, listable t f) /\ (~ unlistable t -> exists f, listable t f).
Proof. split; [intros U [f Hf]; exact (unlistable_not t U f Hf)|apply listed_or_not]. Qed.
Lemma c171_sealed_lemma fuel m (W : wdev (list byte)) t t' tr p b e n s : source t' -> presents (overlay tr (raw_fs t)) t' -> at_path t' p (FFile b) ->
  trie_get tr p = @Ok ioerr _ (Some e) -> lookup_raw (m_host_path e) t = Some (RSealed n) -> snd (create_xdvdfs_image fuel m W (overlay tr (raw_fs t)) s) <> Ok tt.
Proof.
  intros S P A G L. apply (c140_files fuel m W (overlay tr (raw_fs t)) t' p b s S P A). intros d i o k j. cbn [overlay copy_in]. rewrite G. cbn [raw_fs copy_in]. unfold raw_copy_file. rewrite L. discriminate.
Qed.
