(** The path trie (C39). *)
From Verif Require Import M_Base M_Util M_Layout M_Read M_Img M_Trie S_Trie.
From Verif Require Import P_Base.
From Coq Require Import Permutation Lia.
Local Open Scope N_scope.

Section Trie.
Context {T E : Type}.
Notation R := (res E).

Lemma trie_ind' (P : trie T -> Prop) :
  (forall ch r, (forall c t, ch c = Some t -> P t) -> (forall v t, r = Some (v, t) -> P t) -> P (TNode ch r)) -> forall t, P t.
Proof.
  intros H. fix IH 1. intros [ch r]. apply H.
  - intros c t. destruct (ch c) as [t'|]; [|discriminate]. intros [= <-]. apply IH.
  - intros v t. destruct r as [[v' t']|]; [|discriminate]. intros [= _ <-]. apply IH.
Qed.

(** The record of a name. *)
Fixpoint recd (t : trie T) (s : str) {struct s} : option (T * trie T) :=
  match s with
  | [] => record t
  | c :: s => match children t c with None => None | Some t' => recd t' s end
  end.

Lemma child_latin (t : trie T) c : c < 256 -> child (E:=E) t c = Ok (children t c).
Proof. intros H. unfold child. destruct (N.ltb_spec c 256); [reflexivity|lia]. Qed.

Lemma descend_recd (t : trie T) s : latin s ->
  exists o, descend (E:=E) t s = Ok o /\ match o with Some n => record n = recd t s | None => recd t s = None end.
Proof.
  revert t. induction s as [|c s IH]; intros t Hs; cbn [descend recd].
  - exists (Some t). split; reflexivity.
  - inversion Hs; subst. rewrite child_latin by auto. cbn [bind]. destruct (children t c) as [t'|]; [apply IH; auto|].
    exists None. split; reflexivity.
Qed.

(** Descending stays inside the array exactly as long as the trie knows the
    characters before. *)
Lemma recd_empty s : recd trie_default s = None.
Proof. destruct s; reflexivity. Qed.

Lemma recd_insert (t : trie T) s v f : latin s ->
  insert_tail (E:=E) t s v f =
    (let* sub := f (match recd t s with Some (_, sub) => sub | None => trie_default end) in
     insert_tail t s v (fun _ => Ok sub)).
Proof.
  revert t. induction s as [|c s IH]; intros t Hs; cbn [insert_tail recd].
  - destruct (record t) as [[w sub]|]; cbn [bind]; destruct (f _); reflexivity.
  - inversion Hs; subst. rewrite child_latin by auto. cbn [bind]. rewrite IH by auto. destruct (children t c) as [t'|].
    + destruct (f _); reflexivity.
    + rewrite recd_empty. destruct (f _); reflexivity.
Qed.

Lemma insert_recd (t : trie T) s v sub : latin s ->
  exists t', insert_tail (E:=E) t s v (fun _ => Ok sub) = Ok t'
   /\ recd t' s = Some (match recd t s with Some (w, _) => w | None => v end, sub)
   /\ forall s', s' <> s -> recd t' s' = recd t s'.
Proof.
  revert t. induction s as [|c s IH]; intros t Hs; cbn [insert_tail].
  - cbn [recd]. destruct (record t) as [[w sub0]|]; cbn [bind]; eexists; (split; [reflexivity|]); cbn [recd record];
      (split; [reflexivity|]); intros [|c' s'] H; try congruence; reflexivity.
  - inversion Hs; subst. rewrite child_latin by auto. cbn [bind].
    destruct (IH (match children t c with Some t' => t' | None => trie_default end)) as (t' & E1 & E2 & E3); auto. rewrite E1. cbn [bind].
    eexists. split; [reflexivity|]. cbn [recd children record]. rewrite N.eqb_refl. split.
    + rewrite E2. destruct (children t c); [reflexivity|rewrite recd_empty; reflexivity].
    + intros [|c' s'] H; [reflexivity|]. cbn [recd children]. destruct (N.eqb_spec c' c) as [->|Hc]; [|reflexivity].
      rewrite E3 by congruence. destruct (children t c); [reflexivity|rewrite recd_empty; reflexivity].
Qed.

Lemma insert_non_latin (t : trie T) s v f : ~ latin s -> exists p, insert_tail (E:=E) t s v f = Panic p.
Proof.
  revert t. induction s as [|c s IH]; intros t Hs; [destruct Hs; constructor|]. cbn [insert_tail]. unfold child.
  destruct (N.ltb_spec c 256); [|exists PIndex; reflexivity]. cbn [bind].
  destruct (IH (match children t c with Some t' => t' | None => trie_default end)) as (p & Ep); [|exists p; rewrite Ep; reflexivity].
  intros H'. apply Hs. constructor; auto.
Qed.

Lemma store_recd (t : trie T) s g :
  recd (store_tail t s g) s = (match recd t s with Some (w, sub) => Some (w, g sub) | None => None end)
  /\ forall s', s' <> s -> recd (store_tail t s g) s' = recd t s'.
Proof.
  revert t. induction s as [|c s IH]; intros t; cbn [store_tail].
  - split; [reflexivity|]. intros [|c' s'] H; [congruence|reflexivity].
  - destruct (children t c) as [t'|] eqn:Ec.
    + cbn [recd children]. rewrite N.eqb_refl, Ec. destruct (IH t') as (E1 & E2). split; [exact E1|].
      intros [|c' s'] H; [reflexivity|]. cbn [recd children]. destruct (N.eqb_spec c' c) as [->|Hc]; [|reflexivity].
      rewrite Ec. apply E2. congruence.
    + cbn [recd]. rewrite Ec. split; reflexivity.
Qed.

(** ** Iteration *)
Lemma pushed_in name (t : trie T) x : In x (pushed name t) <-> exists c t', c < 256 /\ children t c = Some t' /\ x = (name ++ [c], t').
Proof.
  unfold pushed. rewrite in_flat_map. split.
  - intros (c & Hc & H). apply in_rev, in_map_iff in Hc. destruct Hc as (n & <- & Hn). apply in_seq in Hn.
    destruct (children t (N.of_nat n)) as [t'|] eqn:Ec; [|destruct H]. destruct H as [<-|[]]. exists (N.of_nat n), t'. ssplit; auto. lia.
  - intros (c & t' & Hc & Ec & ->). exists c. split; [|rewrite Ec; left; reflexivity]. apply -> in_rev. apply in_map_iff.
    exists (N.to_nat c). split; [lia|]. apply in_seq. lia.
Qed.

Definition queue_size (q : list (str * trie T)) : nat := fold_right (fun x n => (trie_size (snd x) + n)%nat) 0%nat q.
Lemma queue_app a b : queue_size (a ++ b) = (queue_size a + queue_size b)%nat.
Proof. induction a as [|x a IH]; cbn [app queue_size fold_right]; [reflexivity|]. fold (queue_size (a ++ b)). rewrite IH. fold (queue_size a). lia. Qed.
Lemma queue_rev a : queue_size (rev a) = queue_size a.
Proof. induction a as [|x a IH]; [reflexivity|]. cbn [rev]. rewrite queue_app, IH. cbn [queue_size fold_right]. fold (queue_size a). lia. Qed.

Lemma pushed_size name (t : trie T) : S (queue_size (pushed name t)) = trie_size t.
Proof.
  destruct t as [ch r]. cbn [trie_size]. f_equal. unfold pushed. cbn [children].
  set (l := map N.of_nat (seq 0 256)). rewrite <- (rev_involutive (flat_map _ (rev l))), queue_rev.
  clearbody l. induction l as [|c l IH]; [reflexivity|]. cbn [rev fold_right]. rewrite flat_map_app, rev_app_distr, queue_app. cbn [flat_map].
  rewrite app_nil_r, queue_rev. rewrite IH. destruct (ch c); cbn; lia.
Qed.

(** What a queue entry contributes. *)
Lemma iter_in fuel (q : list (str * trie T)) : (queue_size q <= fuel)%nat ->
  forall s v, In (s, v) (iter_loop fuel q) <-> exists name t s', In (name, t) q /\ latin s' /\ s = name ++ s' /\ exists sub, recd t s' = Some (v, sub).
Proof.
  revert q. induction fuel as [|fuel IH]; intros q Hq s v.
  - destruct q as [|[name t] q].
    + split; [intros []|intros (? & ? & ? & [] & _)].
    + cbn [queue_size fold_right snd] in Hq. destruct t; cbn [trie_size] in Hq. lia.
  - destruct q as [|[name t] q]; [split; [intros []|intros (? & ? & ? & [] & _)]|].
    cbn [iter_loop]. rewrite in_app_iff, IH.
    2:{ rewrite queue_app. cbn [queue_size fold_right snd] in Hq. fold (queue_size q) in Hq. pose proof (pushed_size name t). lia. }
    split.
    + intros [H|(n' & t' & s' & Hin & Hl & -> & sub & Hr)].
      * destruct (record t) as [[w sub]|] eqn:Er; [|destruct H]. destruct H as [[= <- <-]|[]].
        exists name, t, []. ssplit; [left; reflexivity|constructor|rewrite app_nil_r; reflexivity|]. exists sub. exact Er.
      * apply in_app_iff in Hin. destruct Hin as [Hin|Hin].
        -- apply pushed_in in Hin. destruct Hin as (c & t1 & Hc & Ec & [= -> ->]). exists name, t, (c :: s').
           ssplit; [left; reflexivity|constructor; auto|rewrite <- app_assoc; reflexivity|]. exists sub. cbn [recd]. rewrite Ec. exact Hr.
        -- exists n', t', s'. ssplit; auto. right; exact Hin. exists sub; auto.
    + intros (n' & t' & s' & [[= <- <-]|Hin] & Hl & -> & sub & Hr).
      * destruct s' as [|c s'].
        -- left. cbn [recd] in Hr. rewrite Hr, app_nil_r. left; reflexivity.
        -- right. cbn [recd] in Hr. destruct (children t c) as [t1|] eqn:Ec; [|discriminate]. inversion Hl; subst.
           exists (name ++ [c]), t1, s'. ssplit; [|auto|rewrite <- app_assoc; reflexivity|exists sub; exact Hr].
           apply in_app_iff. left. apply pushed_in. exists c, t1. auto.
      * right. exists n', t', s'. ssplit; auto. apply in_app_iff. right; exact Hin. exists sub; auto.
Qed.

(** Names in a queue are pairwise not prefixes of each other. *)
Fixpoint prefix_free (q : list (str * trie T)) : Prop :=
  match q with
  | [] => True
  | x :: q => (forall y, In y q -> forall a b, fst x ++ a <> fst y ++ b) /\ prefix_free q
  end.
Lemma prefix_free_app a b : prefix_free a -> prefix_free b -> (forall x y, In x a -> In y b -> forall u v, fst x ++ u <> fst y ++ v) -> prefix_free (a ++ b).
Proof.
  induction a as [|x a IH]; intros Ha Hb Hc; [exact Hb|]. cbn [app prefix_free] in *. destruct Ha as (H1 & H2). split.
  - intros y Hy. apply in_app_iff in Hy. destruct Hy as [Hy|Hy]; [apply H1; exact Hy|apply Hc; [left; reflexivity|exact Hy]].
  - apply IH; auto. intros u v Hu Hv. apply Hc; [right; exact Hu|exact Hv].
Qed.
Lemma pushed_free name (t : trie T) : prefix_free (pushed name t).
Proof.
  unfold pushed. assert (HN : NoDup (rev (map N.of_nat (seq 0 256)))).
  { apply NoDup_rev. apply FinFun.Injective_map_NoDup; [intros a b; lia|apply seq_NoDup]. }
  revert HN. generalize (rev (map N.of_nat (seq 0 256))) as l. induction l as [|c l IH]; intros HN; [exact I|]. inversion HN; subst. cbn [flat_map].
  apply prefix_free_app; auto.
  - destruct (children t c); cbn [prefix_free]; [split; [intros ? []|exact I]|exact I].
  - intros x y Hx Hy u v Huv. apply in_flat_map in Hy. destruct Hy as (c' & Hc' & Hy).
    destruct (children t c); [|destruct Hx]. destruct Hx as [<-|[]]. destruct (children t c'); [|destruct Hy]. destruct Hy as [<-|[]].
    cbn [fst] in Huv. rewrite <- !app_assoc in Huv. apply app_inv_head in Huv. cbn [app] in Huv. congruence.
Qed.

Lemma iter_nodup fuel (q : list (str * trie T)) : (queue_size q <= fuel)%nat -> prefix_free q -> NoDup (map fst (iter_loop fuel q)).
Proof.
  revert q. induction fuel as [|fuel IH]; intros q Hq Hf; [constructor|]. destruct q as [|[name t] q]; [constructor|]. cbn [iter_loop].
  cbn [prefix_free] in Hf. destruct Hf as (Hf1 & Hf2).
  assert (Hs : (queue_size (pushed name t ++ q) <= fuel)%nat).
  { rewrite queue_app. cbn [queue_size fold_right snd] in Hq. fold (queue_size q) in Hq. pose proof (pushed_size name t). lia. }
  assert (HN : NoDup (map fst (iter_loop fuel (pushed name t ++ q)))).
  { apply IH; auto. apply prefix_free_app; auto using pushed_free. intros x y Hx Hy u v Huv. apply pushed_in in Hx. destruct Hx as (c & t' & _ & _ & ->).
    cbn [fst] in Huv. rewrite <- app_assoc in Huv. exact (Hf1 y Hy _ _ Huv). }
  destruct (record t) as [[w sub]|]; [|exact HN]. cbn [app map fst]. constructor; auto.
  intros Hin. apply in_map_iff in Hin. destruct Hin as ([s v] & Hs' & Hin). cbn [fst] in Hs'. subst s. apply iter_in in Hin; auto.
  destruct Hin as (n' & t' & s' & Hin & _ & Hn & _). apply in_app_iff in Hin. destruct Hin as [Hin|Hin].
  - apply pushed_in in Hin. destruct Hin as (c & t1 & _ & _ & [= -> _]). rewrite <- app_assoc in Hn. rewrite <- (app_nil_r name) in Hn at 1.
    apply app_inv_head in Hn. discriminate.
  - apply (Hf1 _ Hin [] s'). cbn [fst]. rewrite app_nil_r. exact Hn.
Qed.

Lemma trie_iter_spec (t : trie T) :
  NoDup (map fst (trie_iter t)) /\ forall s v, In (s, v) (trie_iter t) <-> latin s /\ exists sub, recd t s = Some (v, sub).
Proof.
  assert (Hs : (queue_size [([] : str, t)] <= trie_size t)%nat) by (cbn; lia). unfold trie_iter. split.
  - apply iter_nodup; auto. cbn. split; [intros ? []|exact I].
  - intros s v. rewrite iter_in by auto. split.
    + intros (name & t' & s' & [Hx|[]] & Hl & -> & H). injection Hx as <- <-. auto.
    + intros (Hl & H). exists [], t, s. ssplit; auto. left; reflexivity.
Qed.

(** ** Whole paths *)
Fixpoint at_trie (t : trie T) (p : path) {struct p} : option (trie T) :=
  match p with
  | [] => Some t
  | s :: p => match recd t s with Some (_, sub) => at_trie sub p | None => None end
  end.
Fixpoint val (t : trie T) (p : path) {struct p} : option T :=
  match p with
  | [] => None
  | [s] => match recd t s with Some (v, _) => Some v | None => None end
  | s :: p => match recd t s with Some (_, sub) => val sub p | None => None end
  end.

Lemma subdir_at t p : latin_path p -> lookup_subdir (E:=E) t p = Ok (at_trie t p).
Proof.
  revert t. induction p as [|s p IH]; intros t Hp; [reflexivity|]. inversion Hp; subst. cbn [lookup_subdir at_trie].
  destruct (descend_recd t s) as (o & -> & Ho); auto. cbn [bind]. destruct o as [n|]; [rewrite <- Ho|rewrite Ho; reflexivity].
  destruct (record n) as [[w sub]|]; auto.
Qed.
Lemma get_val t p : latin_path p -> p <> [] -> trie_get (E:=E) t p = Ok (val t p).
Proof.
  unfold trie_get. revert t. induction p as [|s p IH]; intros t Hp Hn; [congruence|]. inversion Hp; subst. cbn [lookup_node val].
  destruct (descend_recd t s) as (o & -> & Ho); auto. cbn [bind]. destruct o as [n|].
  - rewrite <- Ho. destruct p as [|s' p]; [cbn [bind]; destruct (record n) as [[v sub]|]; reflexivity|].
    destruct (record n) as [[v sub]|]; [|reflexivity]. rewrite IH by (auto; discriminate). reflexivity.
  - rewrite Ho. destruct p; reflexivity.
Qed.
Lemma val_app t p s : val t (p ++ [s]) = match at_trie t p with Some sub => match recd sub s with Some (v, _) => Some v | None => None end | None => None end.
Proof.
  revert t. induction p as [|c p IH]; intros t; [reflexivity|]. cbn [app at_trie]. 
  assert (E1 : forall q, q <> [] -> val t (c :: q) = match recd t c with Some (_, sub) => val sub q | None => None end) by (intros [|]; [congruence|reflexivity]).
  rewrite E1 by (destruct p; discriminate). destruct (recd t c) as [[w sub]|]; [apply IH|reflexivity].
Qed.
Lemma at_val t p : p <> [] -> (at_trie t p <> None <-> val t p <> None).
Proof.
  revert t. induction p as [|c p IH]; intros t Hn; [congruence|]. cbn [at_trie val]. destruct (recd t c) as [[w sub]|]; [|destruct p; tauto].
  destruct p as [|c' p]; [cbn; split; discriminate|]. apply IH. discriminate.
Qed.

(** Replacing the subtree of a directory. *)
Lemma store_at t p new sub : at_trie t p = Some sub ->
  at_trie (store_subtree t p new) p = Some new.
Proof.
  revert t. induction p as [|c p IH]; intros t H; [reflexivity|]. cbn [at_trie store_subtree] in *.
  destruct (store_recd t c (fun sub => store_subtree sub p new)) as (E1 & _). rewrite E1. destruct (recd t c) as [[w s]|]; [|discriminate]. auto.
Qed.

Lemma val_cons t c q : q <> [] -> val t (c :: q) = match recd t c with Some (_, sub) => val sub q | None => None end.
Proof. destruct q; [congruence|reflexivity]. Qed.
Lemma val_default q : val trie_default q = None.
Proof. destruct q as [|c [|c' q]]; cbn [val]; rewrite ?recd_empty; reflexivity. Qed.

Lemma put_val t d s v sub : latin s -> at_trie t d = Some sub ->
  exists sub', insert_tail (E:=E) sub s v (fun x => Ok x) = Ok sub' /\
  forall q, val (store_subtree t d sub') q = if path_eq_dec q (d ++ [s]) then Some (match val t q with Some w => w | None => v end) else val t q.
Proof.
  intros Hs Hd. destruct (insert_recd sub s v (match recd sub s with Some (_, x) => x | None => trie_default end) Hs) as (sub' & E1 & E2 & E3).
  exists sub'. split; [rewrite recd_insert by auto; cbn [bind]; exact E1|]. clear E1.
  revert t Hd. induction d as [|c d IH]; intros t Hd.
  - cbn [at_trie] in Hd. injection Hd as ->. cbn [store_subtree app]. intros q. destruct (path_eq_dec q [s]) as [->|Hq].
    + cbn [val]. rewrite E2. destruct (recd sub s) as [[w x]|]; reflexivity.
    + destruct q as [|s' [|s2 q]]; [reflexivity| |].
      * cbn [val]. rewrite E3 by congruence. reflexivity.
      * rewrite !val_cons by discriminate. destruct (list_eq_dec N.eq_dec s' s) as [->|Hs']; [|rewrite E3 by auto; reflexivity].
        rewrite E2. destruct (recd sub s) as [[w x]|]; [reflexivity|]. apply val_default.
  - cbn [at_trie store_subtree app] in *. destruct (store_recd t c (fun sub => store_subtree sub d sub')) as (F1 & F2).
    destruct (recd t c) as [[w x]|] eqn:Ec; [|discriminate]. specialize (IH x Hd). intros q.
    destruct q as [|c' q]; [destruct (path_eq_dec [] (c :: d ++ [s])); [discriminate|reflexivity]|].
    destruct (list_eq_dec N.eq_dec c' c) as [->|Hc].
    + destruct q as [|c2 q].
      * cbn [val]. rewrite F1, Ec. destruct (path_eq_dec [c] (c :: d ++ [s])) as [Hx|]; [destruct d; discriminate Hx|reflexivity].
      * rewrite !val_cons by discriminate. rewrite F1, Ec, IH.
        destruct (path_eq_dec (c2 :: q) (d ++ [s])), (path_eq_dec (c :: c2 :: q) (c :: d ++ [s])); congruence.
    + destruct (path_eq_dec (c' :: q) (c :: d ++ [s])); [congruence|]. destruct q; cbn [val]; rewrite F2 by auto; reflexivity.
Qed.
End Trie.

(** ** Histories *)
Section History.
Context {T E : Type}.

Lemma value_app (p : path) (m : list (path * T)) q v : value p (m ++ [(q, v)]) = match value p m with Some w => Some w | None => if path_eq_dec p q then Some v else None end.
Proof. induction m as [|[r w] m IH]; cbn [app value]; [destruct (path_eq_dec p q); reflexivity|]. destruct (path_eq_dec p r); [reflexivity|exact IH]. Qed.

Definition agrees (t : trie T) (m : list (path * T)) : Prop := forall p, val t p = match p with [] => None | _ => value p m end.

Lemma agrees_at t m p : agrees t m -> p <> [] -> (at_trie t p <> None <-> value p m <> None).
Proof. intros H Hp. rewrite at_val by auto. rewrite H. destruct p; [congruence|tauto]. Qed.

Lemma after_known (m : list (path * T)) d s v : d = [] \/ value d m <> None ->
  after m (d, s, v) = match value (d ++ [s]) m with Some _ => m | None => m ++ [(d ++ [s], v)] end.
Proof.
  intros Hk. unfold after. destruct d as [|c d]; [reflexivity|]. destruct Hk as [|Hk]; [discriminate|]. destruct (value (c :: d) m); [|congruence]. reflexivity.
Qed.
Lemma agrees_step t m d s v : agrees t m -> latin_path d -> latin s ->
  exists t', insert_op (E:=E) t (d, s, v) = Ok t' /\ agrees t' (after m (d, s, v)).
Proof.
  intros H Hd Hs. unfold insert_op. rewrite subdir_at by auto. cbn [bind]. destruct (at_trie t d) as [sub|] eqn:Ed.
  - destruct (put_val (E:=E) t d s v sub Hs Ed) as (sub' & E1 & E2). rewrite E1. cbn [bind]. eexists. split; [reflexivity|].
    intros p. rewrite E2.
    assert (Hk : d = [] \/ value d m <> None) by (destruct d; [left; reflexivity|right; apply (agrees_at t m); [exact H|discriminate|congruence]]).
    rewrite after_known by exact Hk. destruct (path_eq_dec p (d ++ [s])) as [->|Hp].
    + rewrite H. destruct (d ++ [s]) as [|c l] eqn:El; [destruct d; discriminate|]. destruct (value (c :: l) m) as [w|] eqn:Ev; [rewrite Ev; reflexivity|].
      rewrite value_app, Ev. destruct (path_eq_dec (c :: l) (c :: l)); [reflexivity|congruence].
    + rewrite H. destruct p as [|c l]; [reflexivity|]. destruct (value (d ++ [s]) m); [reflexivity|]. rewrite value_app.
      destruct (value (c :: l) m); [reflexivity|]. destruct (path_eq_dec (c :: l) (d ++ [s])); [congruence|reflexivity].
  - exists t. split; [reflexivity|]. intros p. rewrite H. destruct p as [|c l]; [reflexivity|]. unfold after.
    destruct d as [|c' d]; [discriminate|]. assert (Hv : value (c' :: d) m = None).
    { destruct (value (c' :: d) m) eqn:Ev; [|reflexivity]. exfalso. apply (agrees_at t m (c' :: d) H); [discriminate|congruence|exact Ed]. }
    rewrite Hv. reflexivity.
Qed.

Lemma agrees_ops (l : list (op T)) : Forall op_latin l -> forall t m, agrees t m ->
  exists t', foldM (insert_op (E:=E)) t l = Ok t' /\ agrees t' (fold_left after l m).
Proof.
  induction l as [|[[d s] v] l IH]; intros Hl t m H; [exists t; split; [reflexivity|exact H]|]. inversion Hl as [|? ? Ho Hl']; subst. cbn in Ho. destruct Ho as (Hd & Hs).
  destruct (agrees_step t m d s v H Hd Hs) as (t1 & E1 & H1). cbn [foldM fold_left]. rewrite E1. cbn [bind]. apply IH; auto.
Qed.

Lemma c39_lemma (l : list (op T)) : Forall op_latin l ->
  exists t, insert_ops (E:=E) l = Ok t
  /\ (forall p, latin_path p -> p <> [] -> trie_get (E:=E) t p = Ok (value p (contents l)))
  /\ (forall d, latin_path d -> exists o, lookup_subdir (E:=E) t d = Ok o /\
       match o with
       | None => ~ known d (contents l)
       | Some sub => known d (contents l) /\ NoDup (map fst (trie_iter sub))
           /\ forall s v, In (s, v) (trie_iter sub) <-> latin s /\ value (d ++ [s]) (contents l) = Some v
       end).
Proof.
  intros Hl. destruct (agrees_ops l Hl trie_default []) as (t & E1 & H); [intros p; rewrite val_default; destruct p; reflexivity|].
  exists t. split; [exact E1|]. fold (contents l) in H. split.
  - intros p Hp Hn. rewrite get_val by auto. rewrite H. destruct p; [congruence|reflexivity].
  - intros d Hd. exists (at_trie t d). split; [apply subdir_at; auto|].
    assert (Hk : at_trie t d <> None <-> known d (contents l)).
    { unfold known. destruct d as [|c d]; [cbn; split; [auto|discriminate]|]. rewrite (agrees_at t _ (c :: d) H) by discriminate. split; [auto|intros [|]; [discriminate|auto]]. }
    destruct (at_trie t d) as [sub|] eqn:Ed; [|intros Hx; apply Hk in Hx; congruence]. split; [apply Hk; discriminate|].
    destruct (trie_iter_spec sub) as (HN & Hi). split; [exact HN|]. intros s v. rewrite Hi. pose proof (val_app t d s) as Hv. rewrite Ed, H in Hv.
    assert (Hv' : value (d ++ [s]) (contents l) = match recd sub s with Some (v, _) => Some v | None => None end) by (rewrite <- Hv; destruct d; reflexivity).
    rewrite Hv'. split; intros (H1 & H2); (split; [exact H1|]).
    + destruct H2 as (x & ->). reflexivity.
    + destruct (recd sub s) as [[w x]|]; [|discriminate]. injection H2 as ->. exists x. reflexivity.
Qed.
End History.
