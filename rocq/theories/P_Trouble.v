(** Proofs about unpacking in the browser while calls fail (C169). *)
From Verif Require Import M_Base M_Util M_Layout M_Read M_Img M_Dev M_Xfs M_Check M_Cli M_Unpack M_Host M_Web M_Trouble.
From Verif Require Import S_Avl S_Codec S_Table S_Read S_Img S_Dev S_Check S_Cli S_Unpack S_Web S_Flaky S_Trouble.
From Verif Require Import P_Base P_Read P_Find P_Tree P_More P_Order P_Repack P_Check P_Cli P_Host P_Unpack P_WebUnpack P_Flaky P_Mono.
From Coq Require Import Init.Byte Permutation Lia.
Local Open Scope N_scope.

(** ** Messages only grow *)
Lemma web_grows wf accepts file base : forall fuel stack count w evs, exists rest, snd (fst (web_unpack_loop fuel wf accepts file base stack count w evs)) = evs ++ rest.
Proof.
  assert (Z : forall evs : list event, exists rest, evs = evs ++ rest) by (intros evs; exists []; symmetry; apply app_nil_r).
  induction fuel as [|fuel IH]; intros [|[p e] stack] count w evs; try apply Z.
  cbn [web_unpack_loop]. destruct (dirent_table (d_dirent (e_node e))) as [tab|].
  - destruct (create_directory _ _ _ _) as [w1 [dir|x|x|]]; cbn [run_host]; try apply Z. destruct (walk_dirent_tree _ _ _) as [es|x|x|]; cbn [run_read]; try apply Z.
    destruct (IH (push_entries dir es stack) (count + len es) w1 (evs ++ [EFileCount (count + len es); EFileAdded [name_str e] (r_size (d_region (d_dirent (e_node e))))])) as (rest & ->).
    rewrite <- app_assoc. eexists. reflexivity.
  - destruct (create_file _ _ _ _) as [w1 [q|x|x|]]; cbn [run_host]; try apply Z. destruct (_ =? 0); [apply IH|].
    destruct (replace_file _ _ _) as [w2 [u|x|x|]]; cbn [run_host]; try apply Z.
    destruct (IH stack count w2 (evs ++ [EFileAdded [name_str e] (r_size (d_region (d_dirent (e_node e))))])) as (rest & ->).
    rewrite <- app_assoc. eexists. reflexivity.
Qed.

(** ** The same, or stopped *)
Section Sim.
Context (U : trouble) (accepts : str -> bool) (file : list byte) (base : N) (F : only_fails U file).
Lemma loop_sim wf : forall fuel n stack count w evs,
  same_or_stopped (br_unpack_loop U fuel wf accepts file base n stack count w evs) (web_unpack_loop fuel wf accepts file base stack count w evs).
Proof.
  assert (Stop : forall fuel stack count w evs w0 e, same_or_stopped (w0, evs, Err e) (web_unpack_loop fuel wf accepts file base stack count w evs)).
  { intros fuel stack count w evs w0 e. right. destruct (web_grows wf accepts file base fuel stack count w evs) as (rest & E). exists e, rest. split; [reflexivity|exact E]. }
  induction fuel as [|fuel IH]; intros n [|[p e] stack] count w evs; try (left; reflexivity).
  pose proof (fun w0 => Stop (S fuel) ((p, e) :: stack) count w evs w0) as Stop'.
  cbn [br_unpack_loop]. destruct (dirent_table (d_dirent (e_node e))) as [tab|] eqn:Et.
  - unfold attempt. destruct (u_calls U n); [|apply Stop']. cbn [web_unpack_loop] in *. rewrite Et in *. destruct (create_directory _ _ _ _) as [w1 [dir|x|x|]]; cbn [run_host] in *; try (left; reflexivity).
    destruct (walk_dirent_tree_soi _ _ (offset_more _ _ base (F (n + 1)%nat)) wf tab) as [->|[x ->]]; [|apply Stop'].
    destruct (walk_dirent_tree _ _ _) as [es|x|x|]; cbn [run_read]; try (left; reflexivity). apply IH.
  - unfold attempt at 1. destruct (u_calls U n); [|apply Stop']. cbn [web_unpack_loop] in *. rewrite Et in *. destruct (create_file _ _ _ _) as [w1 [q|x|x|]]; cbn [run_host] in *; try (left; reflexivity).
    destruct (_ =? 0); [apply IH|]. unfold fetch_and_write, attempt. destruct (forallb _ _); [|apply Stop']. destruct (u_calls U _); [|apply Stop'].
    destruct (replace_file _ _ _) as [w2 [u|x|x|]]; cbn [run_host]; try (left; reflexivity). apply IH.
Qed.
End Sim.

Lemma probe_sound d' file : fails_more d' (file_dev file) -> forall os base, probe d' os = Ok base -> In base os /\ exists v, read_volume (offset_dev (file_dev file) base) = Ok v.
Proof.
  intros F. induction os as [|o os IH]; intros base; cbn [probe]; [discriminate|].
  destruct (read_volume_weak _ _ (offset_more _ _ o F)) as [->| ->].
  - destruct (rv_two file o) as [[v V]|V]; rewrite V; [intros [= <-]; split; [left; reflexivity|eauto]|]. intros H. destruct (IH _ H). split; [right|]; auto.
  - intros H. destruct (IH _ H). split; [right|]; auto.
Qed.
Lemma probe_calm d' file : fails_more d' (file_dev file) -> forall os, (exists base, probe d' os = Ok base) \/ probe d' os = Err InvalidVolume.
Proof.
  intros F. induction os as [|o os IH]; cbn [probe]; [right; reflexivity|].
  destruct (read_volume_weak _ _ (offset_more _ _ o F)) as [->| ->]; [|exact IH].
  destruct (rv_two file o) as [[v V]|V]; rewrite V; [left; eauto|exact IH].
Qed.
Lemma found_same d' file base : fails_more d' (file_dev file) -> one_partition file -> offset_wrapper_new d' = Ok base -> offset_wrapper_new (file_dev file) = Ok base.
Proof.
  intros F O E. destruct (probe_sound _ _ F _ _ E) as (I & v & V). unfold offset_wrapper_new.
  destruct (probe_two file XDVD_OFFSETS) as [[b B]|B].
  - destruct (probe_sound _ _ (fun o n => or_introl eq_refl) _ _ B) as (I' & v' & V'). rewrite B. f_equal. exact (O _ _ _ _ I' I V' V).
  - exfalso. clear -I V B. revert I B. induction XDVD_OFFSETS as [|o os IH]; intros I; [contradiction|]. cbn [probe].
    destruct (rv_two file o) as [[w W]|W]; rewrite W; [discriminate|]. destruct I as [->|I]; [congruence|]. auto.
Qed.

Lemma c169_lemma U fuel accepts file dest w : only_fails U file -> one_partition file -> same_or_stopped (br_unpack U fuel accepts file dest w) (web_unpack fuel accepts file dest w).
Proof.
  intros F O. assert (Stop : forall w0 e y, @same_or_stopped world (w0, [], Err e) y) by (intros w0 e y; right; exists e, (snd (fst y)); auto).
  unfold br_unpack. destruct (probe_calm _ _ (F 0%nat) XDVD_OFFSETS) as [[base B]|B]; fold (offset_wrapper_new (u_reads U 0)) in B; rewrite B; cbn [run_read]; [|apply Stop].
  unfold web_unpack. rewrite (found_same _ _ _ (F 0%nat) O B). cbn [run_read].
  destruct (read_volume_weak _ _ (offset_more _ _ base (F 0%nat))) as [->| ->]; cbn [run_read]; [|apply Stop].
  destruct (read_volume _) as [v|x|x|]; cbn [run_read]; try (left; reflexivity).
  destruct (walk_dirent_tree_soi _ _ (offset_more _ _ base (F 0%nat)) fuel (v_root v)) as [->|[x ->]]; cbn [run_read]; [|apply Stop].
  destruct (walk_dirent_tree _ _ _) as [es|x|x|]; cbn [run_read]; try (left; reflexivity). apply loop_sim. exact F.
Qed.

Lemma c169_untroubled_lemma U fuel accepts file dest w : no_trouble U file -> br_unpack U fuel accepts file dest w = web_unpack fuel accepts file dest w.
Proof.
  intros (C & R). unfold br_unpack, web_unpack. rewrite R. destruct (offset_wrapper_new _) as [base|x|x|]; cbn [run_read]; try reflexivity.
  destruct (read_volume _) as [v|x|x|]; cbn [run_read]; try reflexivity. destruct (walk_dirent_tree _ _ _) as [es|x|x|]; cbn [run_read]; try reflexivity.
  assert (G : forall wf f n stack count w evs, br_unpack_loop U f wf accepts file base n stack count w evs = web_unpack_loop f wf accepts file base stack count w evs).
  { intros wf. induction f as [|f IH]; intros n [|[p e] stack] count w0 evs; try reflexivity. cbn [br_unpack_loop web_unpack_loop]. destruct (dirent_table _) as [tab|].
    - unfold attempt. rewrite C, R. destruct (create_directory _ _ _ _) as [w1 [dir|x|x|]]; cbn [run_host]; try reflexivity.
      destruct (walk_dirent_tree _ _ _) as [es0|x|x|]; cbn [run_read]; try reflexivity. apply IH.
    - unfold attempt at 1. rewrite C. destruct (create_file _ _ _ _) as [w1 [q|x|x|]]; cbn [run_host]; try reflexivity. destruct (_ =? 0); [apply IH|].
      unfold fetch_and_write, attempt. rewrite C. replace (forallb (u_calls U) (seq (n + 1) 3)) with true by (cbn; rewrite !C; reflexivity).
      destruct (replace_file _ _ _) as [w2 [u|x|x|]]; cbn [run_host]; try reflexivity. apply IH. }
  apply G.
Qed.

(** ** What is there after a failure *)
Lemma partly_refl dest t h : partly dest t h h.
Proof. intros q. left. reflexivity. Qed.
Lemma partly_whole dest t h h1 p t' : partly dest t h h1 -> p <> [] -> at_path t p t' -> partly dest t h (hset h1 (dest ++ p) (as_node t')).
Proof.
  intros H N A q. unfold hset. destruct (hpath_eqb_spec q (dest ++ p)) as [->|]; [|apply H]. right. exists p, t'. auto.
Qed.
Lemma partly_new dest t h h1 p t' : partly dest t h h1 -> p <> [] -> at_path t p t' -> is_fdir t' = false -> h1 (dest ++ p) = None -> partly dest t h (hset h1 (dest ++ p) (HFile [])).
Proof.
  intros H N A D E q. unfold hset. destruct (hpath_eqb_spec q (dest ++ p)) as [->|]; [|apply H]. right. exists p, t'. split; [exact N|]. split; [reflexivity|]. split; [exact A|]. right.
  split; [|auto]. destruct (H (dest ++ p)) as [X|(p' & t2 & _ & _ & _ & [X|(_ & _ & X)])]; congruence.
Qed.
Lemma partly_same dest t t' h h' : same_tree t t' -> partly dest t' h h' -> partly dest t h h'.
Proof.
  intros S H q. destruct (H q) as [E|(p & s & N & Q & A & R)]; [left; exact E|right]. destruct (P_Repack.same_at_back _ _ _ A _ S) as (s' & A' & S').
  exists p, s'. split; [exact N|]. split; [exact Q|]. split; [exact A'|]. inversion S'; subst; exact R.
Qed.

Section Pieces.
Context (U : trouble) (accepts : str -> bool) (file : list byte) (base : N) (F : only_fails U file) (dest : list str) (T : ftree) (h0 : host).
Let d := offset_dev (file_dev file) base.
Definition pending (x : list str * dentry) : Prop :=
  exists p t', fst x = dest ++ p /\ at_path T (p ++ [name_str (snd x)]) t' /\ shown file base t' (region_of (snd x)) /\ is_dir (snd x) = is_fdir t'.

Lemma walk_shown wf dd r es cs es0 : fails_more dd d -> walk_dirent_tree wf dd r = Ok es -> returns (fun fuel => walk_dirent_tree fuel d r) (Ok es0) ->
  Forall2 (fun c e => name_str e = fst c /\ is_dir e = is_fdir (snd c) /\ shown file base (snd c) (region_of e)) cs (rev es0) -> es = es0.
Proof.
  intros FM E (k & R) _. apply (soi_ok _ _ _ (walk_dirent_tree_soi _ _ FM wf r)) in E.
  assert (X : walk_dirent_tree (Nat.max wf k) d r = Ok es) by (eapply walk_dirent_tree_mono; [|apply Nat.le_max_l|exact E]; intros o n x Hx; exact Hx).
  rewrite R in X by lia. congruence.
Qed.
Lemma pend_children p cs es stack : at_path T p (FDir cs) ->
  Forall2 (fun c e => name_str e = fst c /\ is_dir e = is_fdir (snd c) /\ shown file base (snd c) (region_of e)) cs (rev es) ->
  Forall pending stack -> Forall pending (push_entries (dest ++ p) es stack).
Proof.
  intros A HF HS. rewrite push_stack. apply Forall_app. split; [|exact HS].
  assert (HI : forall c, In c cs -> at_path T (p ++ [fst c]) (snd c)).
  { intros [m c] Hin. eapply at_path_app; [exact A|]. econstructor; [exact Hin|constructor]. }
  clear A HS. induction HF as [|c e cs l (E1 & E2 & E3) HF IH]; constructor.
  - exists p, (snd c). cbn [fst snd]. rewrite E1. split; [reflexivity|]. split; [apply HI; left; reflexivity|]. auto.
  - apply IH. intros c' Hc'. apply HI. right. exact Hc'.
Qed.
Lemma snoc_not_nil {A} (p : list A) x : p ++ [x] <> [].
Proof. destruct p; discriminate. Qed.

Lemma loop_pieces wf : forall fuel n stack count w evs, Forall pending stack -> partly dest T h0 (w_fs w) ->
  partly dest T h0 (w_fs (fst (fst (br_unpack_loop U fuel wf accepts file base n stack count w evs)))).
Proof.
  induction fuel as [|fuel IH]; intros n [|[parent e] stack] count w evs HS HP; try exact HP. inversion HS as [|? ? (p & t' & E1 & E2 & E3 & E4) HS']; subst. cbn [fst snd] in *. subst parent.
  cbn [br_unpack_loop]. rewrite is_dir_table, E4. destruct t' as [b|cs]; cbn [is_fdir].
  - inversion E3 as [b' r' Hb Hb0|]; subst b' r'. unfold attempt at 1. destruct (u_calls U n); [|exact HP].
    unfold create_file. destruct (valid_name accepts (name_str e)); cbn [negb run_host]; [|exact HP].
    rewrite <- app_assoc.
    assert (K : forall w1, partly dest T h0 (w_fs w1) -> partly dest T h0 (w_fs (fst (fst (
       if r_size (d_region (d_dirent (e_node e))) =? 0 then br_unpack_loop U fuel wf accepts file base (n + 1) stack count w1 evs
       else run_host (fetch_and_write U (n + 1) (dest ++ p ++ [name_str e]) (file_data file base (d_region (d_dirent (e_node e)))) w1) evs (fun _ w =>
            br_unpack_loop U fuel wf accepts file base (n + 5) stack count w (evs ++ [EFileAdded [name_str e] (r_size (d_region (d_dirent (e_node e))))]))))))).
    { intros w1 H1. destruct (_ =? 0); [apply IH; auto|]. unfold fetch_and_write, attempt. destruct (forallb _ _); [|exact H1]. destruct (u_calls U _); [|exact H1].
      unfold replace_file. destruct (_ <? _); cbn [run_host]; [exact H1|]. apply IH; [exact HS'|]. cbn [after w_fs]. fold (region_of e). rewrite Hb.
      exact (partly_whole dest T h0 _ _ _ H1 (snoc_not_nil p (name_str e)) E2). }
    destruct (w_fs w (dest ++ p ++ [name_str e])) as [[|b0]|] eqn:Eh; cbn [run_host]; [exact HP|apply K; exact HP|].
    destruct (w_fs w (dest ++ p)) as [[|b1]|]; cbn [run_host]; try exact HP. destruct (_ <? _); cbn [run_host]; [exact HP|]. apply K. cbn [after w_fs].
    eapply partly_new; eauto. apply snoc_not_nil.
  - inversion E3 as [|cs' r' es Hw HF]; subst cs' r'. unfold attempt. destruct (u_calls U n); [|exact HP].
    unfold create_directory. destruct (valid_name accepts (name_str e)); cbn [negb run_host]; [|exact HP].
    rewrite <- app_assoc.
    assert (K : forall w1, partly dest T h0 (w_fs w1) -> partly dest T h0 (w_fs (fst (fst (
       run_read (walk_dirent_tree wf (offset_dev (u_reads U (n + 1)) base) (region_of e)) w1 evs (fun es =>
              br_unpack_loop U fuel wf accepts file base (n + 1) (push_entries (dest ++ p ++ [name_str e]) es stack) (count + len es) w1
                (evs ++ [EFileCount (count + len es); EFileAdded [name_str e] (r_size (d_region (d_dirent (e_node e))))]))))))).
    { intros w1 H1. destruct (walk_dirent_tree wf _ _) as [es1|x|x|] eqn:Ew; cbn [run_read]; try exact H1.
      pose proof (walk_shown _ _ _ _ _ _ (offset_more _ _ base (F (n + 1)%nat)) Ew Hw HF) as ->.
      apply IH; [|exact H1]. apply (pend_children (p ++ [name_str e]) cs); auto. }
    destruct (w_fs w (dest ++ p ++ [name_str e])) as [[|b0]|] eqn:Eh; cbn [run_host]; [apply K; exact HP|exact HP|].
    destruct (w_fs w (dest ++ p)) as [[|b1]|]; cbn [run_host]; try exact HP. destruct (_ <? _); cbn [run_host]; [exact HP|]. apply K. cbn [after w_fs].
    exact (partly_whole dest T h0 _ _ _ HP (snoc_not_nil p (name_str e)) E2).
Qed.
End Pieces.

Lemma c169_pieces_lemma U fuel accepts file dest t w : only_fails U file -> one_partition file -> is_image file t ->
  partly dest t (w_fs w) (w_fs (fst (fst (br_unpack U fuel accepts file dest w)))).
Proof.
  intros F O (d & r & Ho & (v & Hv & ->) & Ht & Hc). destruct (open_image_base _ _ Ho) as (base & Hb & ->).
  pose proof (image_lawful _ _ Ho) as Hlaw. destruct (contains_shown file base t Hlaw _ Hc) as (t' & Hsame & Hsh).
  apply (partly_same _ _ _ _ _ Hsame). destruct t as [|cs0]; [discriminate|]. destruct (same_fdir_l _ _ Hsame) as (cs & ->).
  inversion Hsh as [|cs' r' es Hw HF]; subst cs' r'.
  unfold br_unpack. destruct (offset_wrapper_new (u_reads U 0)) as [base'|x|x|] eqn:B; cbn [run_read]; try apply partly_refl.
  pose proof (found_same _ _ _ (F 0%nat) O B) as B'. assert (base' = base) as -> by congruence.
  cbv zeta. destruct (read_volume (offset_dev (u_reads U 0) base)) as [v'|x|x|] eqn:Ev; cbn [run_read]; try apply partly_refl.
  assert (v' = v) as -> by (destruct (read_volume_weak _ _ (offset_more _ _ base (F 0%nat))); congruence).
  destruct (walk_dirent_tree fuel (offset_dev (u_reads U 0) base) (v_root v)) as [es1|x|x|] eqn:Ew; cbn [run_read]; try apply partly_refl.
  pose proof (walk_shown file base _ _ _ _ _ _ (offset_more _ _ base (F 0%nat)) Ew Hw HF) as ->.
  apply loop_pieces; [exact F| |apply partly_refl].
  rewrite <- (app_nil_r dest) at 2. apply (pend_children file base dest (FDir cs) [] cs); auto. constructor.
Qed.

Lemma c169_success_lemma U fuel accepts file dest w w' evs u : only_fails U file -> one_partition file ->
  br_unpack U fuel accepts file dest w = (w', evs, Ok u) -> web_unpack fuel accepts file dest w = (w', evs, Ok u).
Proof. intros F O E. destruct (c169_lemma U fuel accepts file dest w F O) as [<-|(e & rest & X & _)]; [exact E|]. rewrite E in X. discriminate X. Qed.
Lemma small_one file : len file < 34146304 -> one_partition file.
Proof.
  intros L o o' v v' I I' V V'. assert (G : forall o v, In o XDVD_OFFSETS -> read_volume (offset_dev (file_dev file) o) = Ok v -> o = 0).
  { clear -L. intros o v [<-|I] V; [reflexivity|]. exfalso. rewrite rv_far in V; [discriminate|]. destruct I as [<-|[<-|[<-|[]]]]; lia. }
  rewrite (G o v I V), (G o' v' I' V'). reflexivity.
Qed.
