(** Packing from an existing image (C40, C41). *)
From Verif Require Import M_Base M_Util M_Layout M_Avl M_Sector M_Dirtab M_Read M_Img M_Dev M_Trie M_Xfs.
From Verif Require Import S_Avl S_Codec S_Table S_Read S_Img S_Dev S_Trie S_Xfs.
From Verif Require Import P_Base P_Tree P_Pack P_Run P_Trie.
From Coq Require Import Init.Byte Permutation Lia.
Local Open Scope N_scope.

Lemma F2_impl {A B} (P Q : A -> B -> Prop) l l' : (forall a b, P a b -> Q a b) -> Forall2 P l l' -> Forall2 Q l l'.
Proof. intros H. induction 1; constructor; auto. Qed.
Lemma at_same t q a b : proper t -> at_path t q a -> at_path t q b -> a = b.
Proof. intros HP H1 H2. apply lookup_at in H1; auto. apply lookup_at in H2; auto. congruence. Qed.

(** Only [dir_tree] lists directories. *)
Lemma bind_ext {D A B} (x y : prog D A) (f g : A -> prog D B) : (forall s, x s = y s) -> (forall a s, f a s = g a s) -> forall s, pbind x f s = pbind y g s.
Proof. intros H1 H2 s. unfold pbind. rewrite H1. destruct (y s) as [s' [a| | |]]; auto. Qed.
Lemma listing_copy {D} (fs fs' : fsys D) p : copy_in fs = copy_in fs' -> forall l secs s, add_listing fs p l secs s = add_listing fs' p l secs s.
Proof.
  intros E. induction l as [|e l IH]; intros secs s; [reflexivity|]. cbn [add_listing]. revert s. apply bind_ext; [reflexivity|]. intros _ s.
  destruct (l_is_dir e); [apply IH|]. revert s. apply bind_ext; [intros s; unfold pcopy; rewrite E; reflexivity|]. intros _. apply IH.
Qed.
Lemma tables_copy {D} m (W : wdev D) (fs fs' : fsys D) : copy_in fs = copy_in fs' ->
  forall l nf secs s, add_tables m W fs l nf secs s = add_tables m W fs' l nf secs s.
Proof.
  intros E. induction l as [|[p w] l IH]; intros nf secs s; [reflexivity|]. cbn [add_tables]. revert s.
  apply bind_ext; [reflexivity|]. intros sec. apply bind_ext; [reflexivity|]. intros [tab nf']. apply bind_ext; [reflexivity|]. intros _.
  apply bind_ext; [reflexivity|]. intros _. apply bind_ext; [apply listing_copy; exact E|]. intros secs'. apply IH.
Qed.
Lemma rest_copy {D} m (W : wdev D) (fs fs' : fsys D) l : copy_in fs = copy_in fs' -> forall s, create_rest m W fs l s = create_rest m W fs' l s.
Proof.
  intros E. unfold create_rest. apply bind_ext; [reflexivity|]. intros tables. apply bind_ext; [reflexivity|]. intros [rp rd].
  apply bind_ext; [reflexivity|]. intros rs. apply bind_ext; [reflexivity|]. intros [nf sec]. apply bind_ext; [apply tables_copy; exact E|]. reflexivity.
Qed.

(** ** The cache *)
Section Store.
Context {T : Type}.
Lemma store_val_under (t : trie T) p sub new q : at_trie t p = Some sub -> q <> [] -> val (store_subtree t p new) (p ++ q) = val new q.
Proof.
  revert t. induction p as [|s p IH]; intros t H Hq; [reflexivity|]. cbn [at_trie store_subtree app] in *.
  rewrite val_cons by (destruct p; [exact Hq|discriminate]).
  destruct (store_recd t s (fun sub => store_subtree sub p new)) as (E1 & _). rewrite E1. destruct (recd t s) as [[w s']|]; [|discriminate]. auto.
Qed.
Lemma store_val_other (t : trie T) p sub new q : at_trie t p = Some sub -> (forall q', q' <> [] -> q <> p ++ q') -> val (store_subtree t p new) q = val t q.
Proof.
  revert t q. induction p as [|s p IH]; intros t q H Hq; cbn [at_trie store_subtree] in *.
  - destruct q as [|c q]; [reflexivity|]. destruct (Hq (c :: q)); [discriminate|reflexivity].
  - destruct (store_recd t s (fun sub => store_subtree sub p new)) as (E1 & E2). destruct (recd t s) as [[w s']|] eqn:Er; [|discriminate].
    destruct q as [|c q]; [reflexivity|]. destruct (list_eq_dec N.eq_dec c s) as [->|Hc].
    + destruct q as [|c' q].
      * cbn [val]. rewrite E1, Er. reflexivity.
      * rewrite !val_cons by discriminate. rewrite E1, Er. apply IH; [exact H|]. intros q' Hq' Ex. apply (Hq q' Hq'). cbn [app]. rewrite Ex. reflexivity.
    + destruct q as [|c' q]; [cbn [val]|rewrite !val_cons by discriminate]; rewrite E2 by exact Hc; reflexivity.
Qed.
Lemma at_val_app (t : trie T) p sub q : at_trie t p = Some sub -> q <> [] -> val t (p ++ q) = val sub q.
Proof.
  revert t. induction p as [|s p IH]; intros t H Hq; cbn [at_trie app] in *; [injection H as ->; reflexivity|].
  rewrite val_cons by (destruct p; [exact Hq|discriminate]). destruct (recd t s) as [[w s']|]; [|discriminate]. auto.
Qed.
Lemma split_prefix (p q : path) : (exists q', q' <> [] /\ q = p ++ q') \/ (forall q', q' <> [] -> q <> p ++ q').
Proof.
  revert q. induction p as [|s p IH]; intros q.
  - destruct q as [|c q]; [right; intros [|]; [congruence|discriminate]|left; exists (c :: q); split; [discriminate|reflexivity]].
  - destruct q as [|c q]; [right; discriminate|]. destruct (list_eq_dec N.eq_dec c s) as [->|Hc].
    + destruct (IH q) as [(q' & H1 & ->)|H]; [left; exists q'; auto|right; intros q' Hq' [= Ex]; eapply H; eauto].
    + right. intros q' _ [= Ex _]. auto.
Qed.
Lemma lookup_node_at {E} (t : trie T) p e : latin_path p -> p <> [] -> val t p = Some e ->
  exists n sub, lookup_node (E:=E) t p = Ok (Some n) /\ record n = Some (e, sub) /\ at_trie t p = Some sub.
Proof.
  revert t. induction p as [|s p IH]; intros t Hl Hn Hv; [congruence|]. inversion Hl as [|? ? Hs Hp]; subst. cbn [lookup_node].
  destruct (descend_recd (E:=E) t s Hs) as (o & -> & Ho). cbn [bind]. destruct p as [|s' p].
  - cbn [val at_trie] in *. destruct o as [n|]; [|rewrite Ho in Hv; discriminate]. destruct (recd t s) as [[w sub]|] eqn:Er; [|discriminate]. injection Hv as ->.
    exists n, sub. auto.
  - rewrite val_cons in Hv by discriminate. destruct o as [n|]; [|rewrite Ho in Hv; discriminate]. cbn [at_trie].
    rewrite Ho. destruct (recd t s) as [[w sub]|] eqn:Er; [|discriminate]. apply IH; auto. discriminate.
Qed.
End Store.

(** ** Listing one directory *)
Definition first_named (s : str) (es : list dentry) : option dentry := find (fun e => str_eqb s (name_str e)) es.

Fixpoint insert_entries (c : cache) (es : list dentry) : res rerr cache :=
  match es with
  | [] => Ok c
  | e :: es => let* c := insert_tail c (name_str e) e (fun x => Ok x) in insert_entries c es
  end.

Lemma insert_entries_val es : Forall (fun e => latin (name_str e)) es -> forall c,
  exists c', insert_entries c es = Ok c' /\
  forall q, val c' q = match val c q with Some w => Some w | None => match q with [s] => first_named s es | _ => None end end.
Proof.
  induction es as [|e es IH]; intros Hl c; cbn [insert_entries].
  - exists c. split; [reflexivity|]. intros q. destruct (val c q); [reflexivity|]. destruct q as [|s [|]]; reflexivity.
  - inversion Hl as [|? ? He Hes]; subst. destruct (put_val (E:=rerr) c [] (name_str e) e c He eq_refl) as (c1 & E1 & E2). rewrite E1. cbn [bind].
    destruct (IH Hes c1) as (c' & E3 & E4). exists c'. split; [exact E3|]. intros q. rewrite E4. cbn [store_subtree app] in E2. rewrite E2.
    destruct (path_eq_dec q [name_str e]) as [->|Hq].
    + destruct (val c [name_str e]); [reflexivity|]. unfold first_named. cbn [find]. rewrite (proj2 (str_eqb_spec _ _) eq_refl). reflexivity.
    + destruct (val c q); [reflexivity|]. destruct q as [|s [|]]; try reflexivity. unfold first_named. cbn [find].
      destruct (str_eqb s (name_str e)) eqn:Es; [|reflexivity]. apply str_eqb_spec in Es. subst. congruence.
Qed.

Lemma list_loop_ok d fuel : forall s es c c', collect_scan fuel d s = Ok es -> insert_entries c es = Ok c' ->
  list_loop fuel d s c = (c', Ok (map dentry_entry es)).
Proof.
  induction fuel as [|fuel IH]; intros s es c c' H Hi; [discriminate|]. cbn [collect_scan list_loop] in *.
  destruct (next_entry (S fuel) d s) as [[[e|] s']| | |]; cbn [bind] in H; try discriminate.
  - destruct (collect_scan fuel d s') as [es'| | |] eqn:Ec; cbn [bind] in H; try discriminate. injection H as <-. cbn [insert_entries] in Hi.
    destruct (insert_tail c (name_str e) e (fun x => Ok x)) as [c1| | |]; cbn [bind] in Hi; try discriminate.
    rewrite (IH _ _ _ _ Ec Hi). reflexivity.
  - injection H as <-. injection Hi as <-. reflexivity.
Qed.

(** ** The tree that the scans show *)
Inductive scans_n (k : nat) (d : dev) : ftree -> region -> Prop :=
| scn_file b r : r_size r = len b -> supplies d (2048 * r_sector r) b -> scans_n k d (FFile b) r
| scn_dir cs r es : (forall fuel, (k <= fuel)%nat -> scan_all fuel d r = Ok es) ->
    Forall2 (fun c e => name_str e = fst c /\ is_dir e = is_fdir (snd c) /\ scans_n k d (snd c) (region_of e)) cs es ->
    scans_n k d (FDir cs) r.

Lemma scans_n_more d t : forall k k' r, (k <= k')%nat -> scans_n k d t r -> scans_n k' d t r.
Proof.
  induction t as [b|cs IH] using ftree_rect'; intros k k' r Hk H; inversion H as [? ? H1 H2|? ? es H1 H2]; subst; [constructor; auto|].
  apply (scn_dir k' d cs r es); [intros fuel Hf; apply H1; lia|]. clear H1 H. induction H2 as [|c e cs es (A & B & C) HF IH2]; constructor.
  - ssplit; auto. apply Forall_cons_iff in IH as (IH & _). eapply IH; eauto.
  - apply IH2. apply Forall_cons_iff in IH as (_ & IH). exact IH.
Qed.

Lemma scans_bound d t : forall r, scans d t r -> exists k, scans_n k d t r.
Proof.
  induction t as [b|cs IH] using ftree_rect'; intros r H; inversion H as [? ? H1 H2|? ? es (k0 & H1) H2]; subst; [exists O; constructor; auto|].
  assert (Hk : exists k, Forall2 (fun c e => name_str e = fst c /\ is_dir e = is_fdir (snd c) /\ scans_n k d (snd c) (region_of e)) cs es).
  { clear H1 H. induction H2 as [|c e cs es (A & B & C) HF IH2]; [exists O; constructor|]. apply Forall_cons_iff in IH as (IHc & IH).
    destruct (IHc _ C) as (k1 & K1). destruct (IH2 IH) as (k2 & K2). exists (Nat.max k1 k2). constructor.
    - ssplit; auto. eapply scans_n_more; [|exact K1]. lia.
    - eapply F2_impl; [|exact K2]. cbn beta. intros c' e' (A' & B' & C'). ssplit; auto. eapply scans_n_more; [|exact C']. lia. }
  destruct Hk as (k & Hk). exists (Nat.max k0 k). apply (scn_dir _ d cs r es); [intros fuel Hf; apply H1; lia|].
  eapply F2_impl; [|exact Hk]. cbn beta. intros c e (A & B & C). ssplit; auto. eapply scans_n_more; [|exact C]. lia.
Qed.

(** The entry under an exact path. *)
Fixpoint ent (k : nat) (d : dev) (r : region) (p : path) : option dentry :=
  match p with
  | [] => None
  | s :: p =>
      match scan_all k d r with
      | Ok es => match first_named s es with
                 | Some e => match p with [] => Some e | _ => ent k d (region_of e) p end
                 | None => None
                 end
      | _ => None
      end
  end.
Definition reg_at (k : nat) (d : dev) (r : region) (p : path) : option region :=
  match p with [] => Some r | _ => option_map region_of (ent k d r p) end.

Lemma first_named_row k d cs es n s : NoDup (map fst cs) ->
  Forall2 (fun c e => name_str e = fst c /\ is_dir e = is_fdir (snd c) /\ scans_n k d (snd c) (region_of e)) cs es -> In (n, s) cs ->
  exists e, first_named n es = Some e /\ In e es /\ name_str e = n /\ is_dir e = is_fdir s /\ scans_n k d s (region_of e).
Proof.
  intros HN HF Hin. induction HF as [|[n' s'] e cs es (A & B & C) HF IH]; [destruct Hin|]. cbn [fst snd map] in *. inversion HN as [|? ? Hni HN']; subst.
  unfold first_named. cbn [find]. destruct (str_eqb n (name_str e)) eqn:En.
  - apply str_eqb_spec in En. destruct Hin as [Eh|Hin]; [injection Eh as Ea Eb; rewrite <- Eb; exists e; ssplit; auto; left; auto|].
    destruct Hni. match goal with |- In ?x _ => replace x with n by congruence end. apply (in_map fst) in Hin. exact Hin.
  - destruct Hin as [Eh|Hin]; [injection Eh as Ea Eb; rewrite Ea, (proj2 (str_eqb_spec _ _) eq_refl) in En; discriminate|].
    destruct (IH HN' Hin) as (e' & H1 & H2 & H3). exists e'. split; [exact H1|]. split; [right; exact H2|exact H3].
Qed.

Lemma ent_at k d t p t' : at_path t p t' -> p <> [] -> proper t -> forall r, scans_n k d t r ->
  exists e, ent k d r p = Some e /\ is_dir e = is_fdir t' /\ scans_n k d t' (region_of e).
Proof.
  induction 1 as [t|cs n t p t' Hin Hat IH]; intros Hn HP r Hs; [congruence|].
  inversion Hs as [|? ? es H1 H2]; subst. destruct (first_named_row k d cs es n t) as (e & F1 & F2 & F3 & F4 & F5); auto; [apply (HP [] cs); constructor|].
  cbn [ent]. rewrite H1, F1 by lia. destruct p as [|s p].
  - inversion Hat; subst. eauto.
  - apply IH; [discriminate|eapply every_dir_sub; [exact HP|econstructor; [exact Hin|constructor]]|exact F5].
Qed.

Lemma ent_snoc k d r p s : ent k d r (p ++ [s]) =
  match reg_at k d r p with
  | Some r' => match scan_all k d r' with Ok es => first_named s es | _ => None end
  | None => None
  end.
Proof.
  revert r. induction p as [|c p IH]; intros r; cbn [app ent reg_at].
  - destruct (scan_all k d r) as [es| | |]; auto. destruct (first_named s es); reflexivity.
  - destruct (scan_all k d r) as [es| | |]; auto. destruct (first_named c es) as [e|]; [|reflexivity].
    destruct p as [|c' p]; [exact (IH (region_of e))|]. rewrite IH. cbn [app]. reflexivity.
Qed.

(** The same listing without a cache. *)
Definition ref_read_dir (k : nat) (d : dev) (r : region) (p : path) : res ioerr (list fentry) :=
  match reg_at k d r p with
  | Some r => match scan_all k d r with Ok es => Ok (map dentry_entry es) | _ => Err (IoOther 0) end
  | None => Err (IoOther 0)
  end.

Lemma is_directory_dir e : is_directory (d_dirent (e_node e)) = is_dir e.
Proof. reflexivity. Qed.

Section Repack.
Variables (k : nat) (d : dev) (t : ftree) (v : volume).
Notation root := (v_root v).
Hypothesis HP : proper t.
Hypothesis HL : latin_tree t.
Hypothesis HS : scans_n k d t root.

Lemma reg_at_ok p t' : at_path t p t' -> exists r, reg_at k d root p = Some r /\ scans_n k d t' r.
Proof.
  intros Hat. destruct p as [|s p]; [assert (t' = t) as -> by (inversion Hat; reflexivity); exists root; split; [reflexivity|exact HS]|].
  destruct (ent_at k d t (s :: p) t' Hat ltac:(discriminate) HP root HS) as (e & H1 & H2 & H3). exists (region_of e). split; auto.
  unfold reg_at. rewrite H1. reflexivity.
Qed.

Lemma ref_presents {D} copy : presents (mkFsys D (ref_read_dir k d root) copy) t.
Proof.
  intros p cs Hat. destruct (reg_at_ok _ _ Hat) as (r & H1 & H2). inversion H2 as [|? ? es H3 H4]; subst. exists (map dentry_entry es).
  cbn [read_dir]. unfold ref_read_dir. rewrite H1, H3 by lia. split; auto. clear - H4.
  induction H4 as [|[n s] e cs es (A & B & C) HF IH]; constructor; auto. cbn [fst snd] in *. unfold lists_as, dentry_entry. cbn [f_name f_type f_len fst snd].
  split; [exact A|]. rewrite is_directory_dir, B. destruct s as [b|]; cbn [is_fdir]; [|reflexivity]. split; [reflexivity|]. inversion C; subst. assumption.
Qed.

Lemma path_latin p t' : at_path t p t' -> latin_path p.
Proof.
  revert t'. induction p as [|s p IH] using rev_ind; intros t' Hat; [constructor|]. apply at_unsnoc in Hat as (cs & H1 & H2).
  apply Forall_app. split; [eapply IH; eauto|]. constructor; [|constructor]. apply (HL s t'). exists p, cs. auto.
Qed.

Record good (c : cache) (done : list path) : Prop := {
  g_right : forall q e, val c q = Some e -> ent k d root q = Some e;
  g_done : forall p cs n s, In p done -> at_path t p (FDir cs) -> In (n, s) cs -> val c (p ++ [n]) <> None
}.

(** The table of a directory whose entry has been cached. *)
Lemma dir_found c done p cs r : good c done -> latin_path p -> at_path t p (FDir cs) -> (p = [] \/ val c p <> None) -> reg_at k d root p = Some r ->
  exists node, at_trie c p = Some node
     /\ match p with
        | [] => Ok (v_root v, c)
        | _ => let* o := lookup_node c p in
               match match o with Some n => record n | None => None end with
               | None => Err NoDirent
               | Some (e, sub) => match dirent_table (d_dirent (e_node e)) with None => Err IsNotDirectory | Some r => Ok (r, sub) end
               end
        end = Ok (r, node).
Proof.
  intros [Gr Gd] Hlp Hat Hc Hr. destruct p as [|s p]; [exists c; split; [reflexivity|]; cbn in Hr; injection Hr as ->; reflexivity|].
  destruct Hc as [|Hc]; [discriminate|]. destruct (val c (s :: p)) as [e|] eqn:Ev; [|congruence].
  destruct (lookup_node_at (E:=rerr) c (s :: p) e Hlp ltac:(discriminate) Ev) as (n & sub & L1 & L2 & L3).
  exists sub. split; [exact L3|]. rewrite L1. cbn [bind]. rewrite L2.
  destruct (ent_at k d t (s :: p) _ Hat ltac:(discriminate) HP root HS) as (e' & X1 & X2 & _).
  pose proof (Gr _ _ Ev) as X3. rewrite X1 in X3. injection X3 as ->. unfold dirent_table. rewrite is_directory_dir, X2. cbn [is_fdir].
  unfold reg_at in Hr. rewrite X1 in Hr. cbn in Hr. injection Hr as <-. reflexivity.
Qed.

Lemma read_dir_good sf c done p cs : (k <= sf)%nat -> good c done -> at_path t p (FDir cs) -> (p = [] \/ val c p <> None) ->
  latin_path p -> (forall n s, In (n, s) cs -> latin n) ->
  exists c' es, xfs_read_dir sf d v c p = (c', Ok es) /\ ref_read_dir k d root p = Ok es /\ Forall2 lists_as es cs
    /\ good c' (done ++ [p]) /\ (forall q, val c q <> None -> val c' q <> None).
Proof.
  intros Hsf Hg Hat Hc Hlp Hln.
  destruct (reg_at_ok _ _ Hat) as (r & Hr & Hs). inversion Hs as [|? ? es Hscan Hrows]; subst.
  assert (Hlat : Forall (fun e => latin (name_str e)) es).
  { clear - Hrows Hln. rename Hln into H. revert H. induction Hrows as [|[n s] e cs es (A & _) HF IH]; intros H; constructor; [rewrite A; eapply H; left; reflexivity|apply IH; intros; eapply H; right; eauto]. }
  destruct (ref_presents (D:=unit) (fun _ _ _ _ _ => (tt, Ok 0)) p cs Hat) as (fes & Hfes & Hlist). cbn [read_dir] in Hfes.
  assert (Efes : fes = map dentry_entry es).
  { unfold ref_read_dir in Hfes. rewrite Hr, Hscan in Hfes by lia. injection Hfes as <-. reflexivity. }
  subst fes.
  destruct (dir_found c done p cs r Hg Hlp Hat Hc Hr) as (node & Hnode & Hf). destruct Hg as [Gr Gd].
  destruct (insert_entries_val es Hlat node) as (node' & I1 & I2).
  assert (Hscan' := Hscan sf Hsf). unfold scan_all in Hscan'. destruct (scan_dirent_tree d r) as [s0| | |] eqn:Es0; cbn [bind] in Hscan'; try discriminate.
  exists (store_subtree c p node'), (map dentry_entry es).
  assert (Hval : forall q, val (store_subtree c p node') q = match val c q with Some w => Some w | None =>
      if path_eq_dec (removelast q) p then match q with [] => None | _ => first_named (last q []) es end else None end).
  { intros q. destruct (split_prefix p q) as [(q' & Hq' & ->)|Hq].
    - rewrite (store_val_under c p node node' q' Hnode Hq'), I2. rewrite (at_val_app c p node q' Hnode Hq'). destruct (val node q') as [w|]; [reflexivity|].
      rewrite removelast_app by exact Hq'. destruct (path_eq_dec (p ++ removelast q') p) as [Eq|Nq].
      + assert (Hr' : removelast q' = []) by (apply (f_equal (@length str)) in Eq; rewrite app_length in Eq; destruct (removelast q'); [reflexivity|cbn in Eq; lia]).
        destruct q' as [|s [|s' q']]; [congruence| |discriminate]. rewrite last_last. destruct (p ++ [s]) eqn:E0; [destruct p; discriminate|reflexivity].
      + destruct q' as [|s [|s' q']]; [congruence| |reflexivity]. cbn [removelast] in Nq. rewrite app_nil_r in Nq. congruence.
    - rewrite (store_val_other c p node node' q Hnode Hq). destruct (val c q); [reflexivity|]. destruct (path_eq_dec (removelast q) p) as [Eq|]; [|reflexivity].
      destruct q as [|c0 q0]; [reflexivity|]. exfalso. apply (Hq [last (c0 :: q0) []]); [discriminate|]. rewrite <- Eq. apply app_removelast_last. discriminate. }
  assert (Hmono : forall q, val c q <> None -> val (store_subtree c p node') q <> None).
  { intros q Hq. rewrite Hval. destruct (val c q); [discriminate|congruence]. }
  split; [|split; [exact Hfes|split; [exact Hlist|split; [|exact Hmono]]]].
  - unfold xfs_read_dir. rewrite Hf. cbn [bind]. rewrite Es0. cbn [bind]. rewrite (list_loop_ok d sf s0 es node node' Hscan' I1). reflexivity.
  - constructor.
    + intros q e Hq. rewrite Hval in Hq. destruct (val c q) as [w|] eqn:Ev; [injection Hq as ->; apply Gr; exact Ev|].
      destruct (path_eq_dec (removelast q) p) as [Eq|]; [|discriminate]. destruct q as [|c0 q0]; [discriminate|].
      rewrite (app_removelast_last [] (l := c0 :: q0)) by discriminate. rewrite Eq, ent_snoc, Hr, Hscan by lia. exact Hq.
    + intros p0 cs0 n s Hin Hat0 Hc0. apply in_app_or in Hin as [Hin|[<-|[]]]; [apply Hmono; eapply Gd; eauto|].
      assert (FDir cs0 = FDir cs) as [= ->] by (eapply (at_same t); eauto).
      rewrite Hval. destruct (val c (p ++ [n])); [discriminate|]. rewrite removelast_last. destruct (path_eq_dec p p) as [_|]; [|congruence].
      destruct (first_named_row k d cs es n s) as (e & F1 & _); auto; [apply (HP p cs Hat)|].
      rewrite last_last, F1. destruct (p ++ [n]) eqn:E0; [destruct p; discriminate|discriminate].
Qed.

Lemma push_in dir es : forall st p, In p (push_subdirs dir es st) -> In p st \/ exists e, In e es /\ f_type e = TDirectory /\ p = from_base dir (f_name e).
Proof.
  unfold push_subdirs. induction es as [|e es IH]; intros st p H; [left; exact H|]. cbn [fold_left] in H. apply IH in H as [H|(e' & H1 & H2)].
  - destruct (f_type e) eqn:Et; [left; exact H|]. destruct H as [<-|H]; [right; exists e; ssplit; auto; left; auto|left; exact H].
  - right. exists e'. split; [right; exact H1|exact H2].
Qed.

Lemma loop_good {D} sf copy fuel : (k <= sf)%nat -> forall dirs c out s s' out', good c (map fst out) ->
  (forall p, In p dirs -> exists cs, at_path t p (FDir cs) /\ (p = [] \/ val c p <> None)) ->
  dir_tree_loop fuel (mkFsys D (ref_read_dir k d root) copy) dirs out s = (s', Ok out') ->
  exists c', xfs_dir_loop fuel sf d v c dirs out s = (s', Ok (c', out')) /\ good c' (map fst out').
Proof.
  intros Hsf. induction fuel as [|fuel IH]; intros dirs c out s s' out' Hg Hst Hrun.
  - destruct dirs; cbn in Hrun; [|discriminate]. injection Hrun as <- <-. exists c. split; [reflexivity|exact Hg].
  - destruct dirs as [|dir dirs]; [cbn in Hrun; injection Hrun as <- <-; exists c; split; [reflexivity|exact Hg]|].
    destruct (Hst dir (or_introl eq_refl)) as (cs & Hat & Hc). destruct (read_dir_good sf c (map fst out) dir cs Hsf Hg Hat Hc (path_latin _ _ Hat) ltac:(intros n s0 Hin; apply (HL n s0); exists dir, cs; auto)) as (c1 & es & R1 & R2 & R3 & R4 & R5).
    cbn [dir_tree_loop xfs_dir_loop read_dir] in *. rewrite R1. rewrite R2 in Hrun. unfold pbind, plift, report in *. cbn [map_err] in *.
    apply (IH _ c1) in Hrun.
    + exact Hrun.
    + rewrite map_app. exact R4.
    + intros p Hp. apply push_in in Hp as [Hp|(e & He & Et & ->)].
      * destruct (Hst p (or_intror Hp)) as (cs' & H1 & H2). exists cs'. split; auto. destruct H2; [left; auto|right; apply R5; auto].
      * assert (Hc' : exists n s0, In (n, s0) cs /\ lists_as e (n, s0)).
        { clear - R3 He. induction R3 as [|e' [n s0] es cs H HF IH]; [destruct He|]. destruct He as [->|He]; [exists n, s0; split; [left; auto|exact H]|].
          destruct (IH He) as (n1 & s1 & H1 & H2). exists n1, s1. split; [right; exact H1|exact H2]. }
        destruct Hc' as (n & s0 & Hin & Hn & Hk). cbn [fst snd] in *. rewrite Et in Hk. destruct s0 as [b|cs']; [destruct Hk; discriminate|].
        rewrite Hn. exists cs'. split; [eapply at_path_snoc; eauto|]. right. apply (g_done _ _ R4 dir cs n (FDir cs')); auto. apply in_or_app. right. left. auto.
Qed.

Lemma good_empty : good trie_default [].
Proof. constructor; [intros q e H; rewrite val_default in H; discriminate|intros ? ? ? ? []]. Qed.

(** What the files of the cache are copied with. *)
Definition copies_by {D} (cp : copier D) (fs : fsys D) : Prop :=
  forall p b, at_path t p (FFile b) -> exists off_in, supplies d off_in b /\ forall dest off,
    copy_in fs p dest 0 off (len b) =
      match b with [] => (dest, Ok 0) | _ => let (dest', r) := cp off_in off (len b) dest in (dest', map_err copy_ioerr r) end.

Lemma good_copies {D} (cp : copier D) c rd : is_fdir t = true -> good c (map fst (dirs [] t)) ->
  copies_by cp (mkFsys D rd (copy_in (xfs_fs cp c))).
Proof.
  intros Ht [Gr Gd] p b Hat. pose proof (path_latin _ _ Hat) as Hlat. destruct (list_snoc p) as [->|(p' & n & ->)].
  - exfalso. assert (t = FFile b) as E by (inversion Hat; reflexivity). rewrite E in Ht. discriminate.
  - assert (Hne : p' ++ [n] <> []) by (destruct p'; discriminate).
    destruct (ent_at k d t _ _ Hat Hne HP root HS) as (e & E1 & E2 & E3). inversion E3 as [? ? L1 L2|]; subst.
    apply at_unsnoc in Hat as (cs & H1 & H2).
    assert (Hv : val c (p' ++ [n]) <> None).
    { apply (Gd p' cs n (FFile b)); auto. apply (in_map fst) with (x := (p', cs)). apply dirs_root. exact H1. }
    destruct (val c (p' ++ [n])) as [e'|] eqn:Ev; [|congruence]. pose proof (Gr _ _ Ev) as E4. rewrite E1 in E4. injection E4 as <-.
    exists (2048 * r_sector (region_of e)). split; [exact L2|]. intros dest off. cbn [copy_in xfs_fs].
    unfold xfs_copy. rewrite (get_val c _ Hlat Hne), Ev. fold (region_of e). rewrite L1, N.min_id.
    destruct b as [|b0 b]; [reflexivity|]. destruct (N.eqb_spec (len (b0 :: b)) 0) as [E0|_]; [rewrite len_cons in E0; lia|].
    unfold region_offset. rewrite L1. destruct (N.leb_spec (len (b0 :: b)) 0) as [E0|_]; [rewrite len_cons in E0; lia|]. cbn [map_err].
    rewrite N.add_0_r. reflexivity.
Qed.

Lemma repack_run {D} m (W : wdev D) (cp : copier D) fuel st evs : is_fdir t = true -> (k <= fuel)%nat -> (length (dirs [] t) < fuel)%nat ->
  exists fs, presents fs t /\ copies_by cp fs /\ create_from_volume fuel m W d v cp (st, evs) = create_xdvdfs_image fuel m W fs (st, evs).
Proof.
  intros Ht Hk Hf. set (fs0 := mkFsys D (ref_read_dir k d root) (fun _ d' _ _ _ => (d', Ok 0))).
  assert (Hp0 : presents fs0 t) by (apply ref_presents).
  pose proof (dir_tree_ok fs0 t fuel st evs Ht Hp0 Hf) as Hrun.
  assert (Hst : forall p, In p [[]] -> exists cs, at_path t p (FDir cs) /\ (p = [] \/ val (trie_default (T:=dentry)) p <> None)).
  { intros p [<-|[]]. destruct t as [|cs]; [discriminate|]. exists cs. split; [constructor|left; reflexivity]. }
  destruct (loop_good fuel _ fuel Hk [[]] trie_default [] (st, evs) _ _ good_empty Hst Hrun) as (c & Hx & Hg).
  assert (Hm : map fst (found fs0 (dirs [] t)) = map fst (dirs [] t)) by (unfold found; rewrite map_map; reflexivity).
  rewrite Hm in Hg. exists (mkFsys D (ref_read_dir k d root) (copy_in (xfs_fs cp c))). split; [apply ref_presents|]. split; [apply good_copies; auto|].
  rewrite create_split. unfold create_from_volume, pbind at 1. rewrite Hx. unfold pbind at 1.
  rewrite (dir_tree_ok _ t fuel st evs Ht (ref_presents _) Hf). apply rest_copy. reflexivity.
Qed.
End Repack.
