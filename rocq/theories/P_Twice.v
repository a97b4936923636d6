(** Packing and building again (C152). *)
From Verif Require Import M_Base M_Util M_Layout M_Avl M_Sector M_Dirtab M_Read M_Img M_Dev M_Trie M_Xfs M_Remap M_Cli M_Unpack M_Exiso M_Stdfs M_Host M_Build.
From Verif Require Import S_Avl S_Codec S_Read S_Img S_Dev S_Trie S_Remap S_Xfs S_Check S_Cli S_Unpack S_Exiso S_Stdfs S_Build.
From Verif Require Import P_Base P_Tree P_Xfs P_Host P_Unpack P_Exiso P_Stdfs P_Build P_Whole P_Desk P_Repro P_Src P_Witness.
From Verif Require Import M_Host M_Build.
From Coq Require Import Init.Byte Strings.String Lia.
From Coq Require Import List.
Local Close Scope string_scope.
Local Open Scope N_scope.

(** ** File systems that behave the same *)
Definition alike {D} (fs fs' : fsys D) : Prop :=
  (forall p, read_dir fs p = read_dir fs' p) /\ forall p d i o n, copy_in fs p d i o n = copy_in fs' p d i o n.

Lemma listing_alike {D} (fs fs' : fsys D) p : alike fs fs' -> forall l secs s, add_listing fs p l secs s = add_listing fs' p l secs s.
Proof.
  intros (_ & E). induction l as [|e l IH]; intros secs s; [reflexivity|]. cbn [add_listing]. revert s. apply bind_ext; [reflexivity|]. intros _ s.
  destruct (l_is_dir e); [apply IH|]. revert s. apply bind_ext; [intros s; unfold pcopy; rewrite E; reflexivity|]. intros _. apply IH.
Qed.
Lemma tables_alike {D} m (W : wdev D) (fs fs' : fsys D) : alike fs fs' ->
  forall l nf secs s, add_tables m W fs l nf secs s = add_tables m W fs' l nf secs s.
Proof.
  intros E. induction l as [|[p w] l IH]; intros nf secs s; [reflexivity|]. cbn [add_tables]. revert s.
  apply bind_ext; [reflexivity|]. intros sec. apply bind_ext; [reflexivity|]. intros [tab nf']. apply bind_ext; [reflexivity|]. intros _.
  apply bind_ext; [reflexivity|]. intros _. apply bind_ext; [apply listing_alike; exact E|]. intros secs'. apply IH.
Qed.
Lemma dirs_alike {D} (fs fs' : fsys D) : alike fs fs' -> forall fuel dirs out s, dir_tree_loop fuel fs dirs out s = dir_tree_loop fuel fs' dirs out s.
Proof.
  intros (E & _). induction fuel as [|fuel IH]; intros [|dir dirs] out s; try reflexivity. cbn [dir_tree_loop]. revert s.
  apply bind_ext; [intros s; rewrite E; reflexivity|]. intros l. apply bind_ext; [reflexivity|]. intros _. apply IH.
Qed.
Lemma create_alike {D} fuel m (W : wdev D) (fs fs' : fsys D) : alike fs fs' -> forall s, create_xdvdfs_image fuel m W fs s = create_xdvdfs_image fuel m W fs' s.
Proof.
  intros E. unfold create_xdvdfs_image. apply bind_ext; [apply dirs_alike; exact E|]. intros l. apply bind_ext; [reflexivity|]. intros tables. apply bind_ext; [reflexivity|]. intros [rp rd].
  apply bind_ext; [reflexivity|]. intros rs. apply bind_ext; [reflexivity|]. intros [nf sec]. apply bind_ext; [apply tables_alike; exact E|]. reflexivity.
Qed.
Lemma walk_alike {D} keys (fs fs' : fsys D) : alike fs fs' -> forall fuel dirs ms, walk_host keys fuel fs dirs ms = walk_host keys fuel fs' dirs ms.
Proof.
  intros (E & _). induction fuel as [|fuel IH]; intros [|[dir par] dirs] ms; try reflexivity. cbn [walk_host]. rewrite E.
  destruct (map_err FilesystemError (read_dir fs' dir)) as [l| | |]; try reflexivity. cbn [bind].
  destruct (fold_left (visit keys dir par) l (dirs, ms)) as [dirs' ms']. apply IH.
Qed.
Lemma remap_alike {D} fuel m wax (fs fs' : fsys D) cfg : alike fs fs' -> remap_new fuel m wax fs cfg = remap_new fuel m wax fs' cfg.
Proof. intros E. unfold remap_new. destruct (compile wax cfg); try reflexivity. cbn [bind]. rewrite (walk_alike _ _ _ E). reflexivity. Qed.
Lemma overlay_alike {D} tr (fs fs' : fsys D) : alike fs fs' -> alike (overlay tr fs) (overlay tr fs').
Proof.
  intros (E1 & E2). split.
  - intros p. reflexivity.
  - intros p d i o n. cbn [overlay copy_in]. destruct (trie_get tr p) as [[e|]|e|e|]; try reflexivity. apply E2.
Qed.
Lemma host_alike h h' ls root : (forall q, h (root ++ q) = h' (root ++ q)) -> alike (host_fs h ls root) (host_fs h' ls root).
Proof.
  intros K. split.
  - intros p. cbn [host_fs read_dir]. unfold host_read_dir. rewrite K. destruct (h' (root ++ p)) as [[|b]|]; try reflexivity.
    induction (ls (root ++ p)) as [|n l IH]; [reflexivity|]. cbn [mapM]. unfold host_entry at 1 3. rewrite <- app_assoc, K. rewrite IH. reflexivity.
  - intros p d i o n. cbn [host_fs copy_in]. unfold host_copy_file. rewrite K. reflexivity.
Qed.

(** ** After the first run *)
Lemma ready_again cwd i w w1 b : ready_for_file cwd i w -> w_left w1 = None -> w_fs w1 (place cwd i) = Some (HFile b) ->
  (forall q, q <> place cwd i -> w_fs w1 q = w_fs w q) -> ready_for_file cwd i w1.
Proof.
  intros (HL & HR & Hd & Hn & Hdl & dir & n & Hp & Hdir & Hf) L1 F1 F2. unfold ready_for_file. ssplit; auto.
  - rewrite Hp in F1, F2. eapply (rooted_file (w_fs w) _ dir n); eauto.
  - rewrite Hp in F1, F2. exists dir, n. ssplit; auto.
    + rewrite F2; [exact Hdir|]. intros E. rewrite <- E in Hf. auto.
    + rewrite F1. discriminate.
Qed.
Lemma canonical_again cwd s w w1 o p b : w_fs w o <> Some HDir -> w_fs w1 o = Some (HFile b) -> (forall q, q <> o -> w_fs w1 q = w_fs w q) ->
  canonicalize (w_fs w) cwd s = Ok p -> p <> o -> canonicalize (w_fs w1) cwd s = Ok p.
Proof. intros H1 H2 H3 Hc Hn. apply (canonicalize_mono o (w_fs w)); auto. split; [exact H3|]. split; [exact H1|]. exists b. exact H2. Qed.

(** ** pack *)
Lemma packer_same ls fuel m h h' p : (forall q, h (p ++ q) = h' (p ++ q)) -> std_packer ls fuel m h p = std_packer ls fuel m h' p.
Proof.
  intros K. pose proof (K []) as K0. rewrite app_nil_r in K0. unfold std_packer, image_packer. rewrite K0. destruct (h' p) as [[|b]|]; try reflexivity.
  rewrite (create_alike fuel m file_wdev _ _ (host_alike h h' ls p K)). reflexivity.
Qed.
Lemma outside o p h h' x y : ~ leads_to p o -> (forall q, q <> o -> h' q = h q) -> forall q, hset h' o x (p ++ q) = hset h o y (p ++ q).
Proof.
  intros Hn K q. assert (p ++ q <> o) by (intros E; apply Hn; exists q; auto). rewrite !hset_neq by auto. apply K; auto.
Qed.
Lemma pack_any_run cwd pk src i w p n : canonicalize (w_fs w) cwd src = Ok p -> w_fs w p = Some n -> ready_for_file cwd i w -> ~ leads_to p (place cwd i) ->
  cmd_pack cwd pk src (Some i) w = (mkWorld (packed_to pk (w_fs w) p (place cwd i)) None, snd (pk (hset (w_fs w) (place cwd i) (HFile [])) p)).
Proof.
  intros Hc Hp HW Hn. unfold cmd_pack. unfold hbind at 1, hres at 1, existing. rewrite Hc. cbn [bind]. rewrite Hp. cbn [ok_or bind].
  unfold hbind, hres. apply (pack_path_run cwd pk p i w n Hp HW Hn).
Qed.
Lemma c152_pack_lemma fuel m ls cwd src image i w p w1 r : Forall unix_name cwd -> canonicalize (w_fs w) cwd src = Ok p ->
  output_for p image i -> (w_fs w p = Some HDir \/ image = Some i /\ w_fs w p <> None) -> ready_for_file cwd i w -> ~ leads_to p (place cwd i) ->
  cmd_pack cwd (std_packer ls fuel m) src image w = (w1, r) ->
  exists w2, cmd_pack cwd (std_packer ls fuel m) src image w1 = (w2, r) /\ forall q, w_fs w2 q = w_fs w1 q.
Proof.
  intros Hcwd Hc Hi Hd HW Hn E. set (o := place cwd i) in *. set (pk := std_packer ls fuel m) in *.
  assert (Hex : exists n, w_fs w p = Some n).
  { destruct Hd as [Hd|(_ & Hd)]; [eauto|]. destruct (w_fs w p) as [n|]; [eauto|congruence]. }
  destruct Hex as (n & Hp).
  assert (R : forall w', canonicalize (w_fs w') cwd src = Ok p -> w_fs w' p = Some n -> ready_for_file cwd i w' ->
    cmd_pack cwd pk src image w' = (mkWorld (packed_to pk (w_fs w') p o) None, snd (pk (hset (w_fs w') o (HFile [])) p))).
  { intros w' Hc' Hp' HW'. destruct Hd as [Hd|(-> & _)].
    - assert (n = HDir) as -> by congruence. apply (pack_dir_run cwd pk src image i w' p); auto.
    - apply (pack_any_run cwd pk src i w' p n); auto. }
  rewrite (R w Hc Hp HW) in E. injection E as <- <-. set (w1 := mkWorld (packed_to pk (w_fs w) p o) None).
  assert (F1 : w_fs w1 o = Some (HFile (fst (pk (hset (w_fs w) o (HFile [])) p)))) by apply hset_eq.
  assert (F2 : forall q, q <> o -> w_fs w1 q = w_fs w q) by (intros q Hq; cbn [w1 w_fs]; unfold packed_to; rewrite !hset_neq by auto; reflexivity).
  assert (Hpo : p <> o) by (intros ->; apply Hn; exists []; rewrite app_nil_r; reflexivity).
  assert (Ho : w_fs w o <> Some HDir) by (destruct HW as (_ & _ & _ & _ & _ & dir & x & Ep & _ & H); unfold o; rewrite Ep; exact H).
  rewrite (R w1).
  - assert (S1 : pk (hset (w_fs w1) o (HFile [])) p = pk (hset (w_fs w) o (HFile [])) p) by (apply packer_same, outside; auto).
    eexists. split; [f_equal; rewrite S1; reflexivity|]. intros q. cbn [w_fs]. unfold packed_to at 1. rewrite S1. destruct (hpath_eqb_spec q o) as [->|Hq].
    + rewrite hset_eq. rewrite F1. reflexivity.
    + rewrite !hset_neq by auto. reflexivity.
  - eapply (canonical_again cwd src w w1 o); eauto.
  - rewrite F2 by auto. exact Hp.
  - eapply (ready_again cwd i w w1); eauto.
Qed.

(** ** build-image *)
Lemma c152_build_main fuel m wax ls toml cwd a s i p w w1 r rr : b_source a = Some s -> b_image a = Some i -> b_dry_run a = false ->
  canonicalize (w_fs w) cwd s = Ok p -> w_fs w p = Some HDir -> ready_for_file cwd i w -> ~ leads_to p (place cwd i) ->
  (forall w', (forall q, q <> place cwd i -> w_fs w' q = w_fs w q) -> canonicalize (w_fs w') cwd s = Ok p ->
     build_rules toml (w_fs w') cwd a (match b_spec a with Some f => f | None => pjoin s TOML end) = rr) ->
  build_image toml (std_overlay fuel m wax ls) (std_overlay_packer fuel m ls) cwd a w = (w1, r) ->
  exists w2, build_image toml (std_overlay fuel m wax ls) (std_overlay_packer fuel m ls) cwd a w1 = (w2, r) /\ forall q, w_fs w2 q = w_fs w1 q.
Proof.
  intros Hs Hi Hdry Hc Hp HW Hn Hb E. set (o := place cwd i) in *. assert (Hso : source_of cwd a = s) by (unfold source_of; rewrite Hs; reflexivity).
  assert (Hpo : p <> o) by (intros ->; apply Hn; exists []; rewrite app_nil_r; reflexivity).
  assert (Ho : w_fs w o <> Some HDir) by (destruct HW as (_ & _ & _ & _ & _ & dir & x & Ep & _ & H); unfold o; rewrite Ep; exact H).
  destruct rr as [[cfg sx]|e|e|]; try (unfold build_image, hbind, hres in E |- *; rewrite (dir_paths _ _ a p) in E by (rewrite ?Hso; auto); rewrite Hso in E; cbn [bind] in E;
    rewrite (Hb w (fun q _ => eq_refl) Hc) in E; cbn [bind] in E; injection E as <- <-; rewrite (dir_paths _ _ a p) by (rewrite ?Hso; auto); rewrite Hso; cbn [bind];
    rewrite (Hb w (fun q _ => eq_refl) Hc); cbn [bind]; eauto).
  set (mk := std_overlay fuel m wax ls) in *. set (pk := std_overlay_packer fuel m ls) in *.
  assert (R : forall w', (forall q, q <> o -> w_fs w' q = w_fs w q) -> canonicalize (w_fs w') cwd s = Ok p -> ready_for_file cwd i w' ->
    build_image toml mk pk cwd a w' =
    match cfg with
    | [] => (w', Err HRefused)
    | _ => match mk (w_fs w) p cfg with
           | Ok tr => let (b, x) := pk (hset (w_fs w) o (HFile [])) p tr in
                      (mkWorld (hset (hset (w_fs w') o (HFile [])) o (HFile b)) None, let* _ := x in Ok None)
           | Err e => (w', Err e) | Panic e => (w', Panic e) | OutOfFuel => (w', OutOfFuel)
           end
    end).
  { intros w' K Hc' HW'. assert (Hp' : w_fs w' p = Some HDir) by (rewrite K by auto; exact Hp).
    unfold build_image, hbind, hres. rewrite (dir_paths _ _ a p) by (rewrite ?Hso; auto). rewrite Hso. cbn [bind]. rewrite (Hb w' K Hc'). cbn [bind]. rewrite Hc'.
    destruct cfg as [|r0 cfg0]; [reflexivity|]. cbn [bind].
    assert (S0 : mk (w_fs w') p (r0 :: cfg0) = mk (w_fs w) p (r0 :: cfg0)).
    { unfold mk, std_overlay. rewrite (remap_alike fuel m wax _ (host_fs (w_fs w) ls p)); [reflexivity|]. apply host_alike. intros q. apply K. intros Eq. apply Hn. exists q. auto. }
    rewrite S0. destruct (mk (w_fs w) p (r0 :: cfg0)) as [tr|e|e|]; try reflexivity. cbn [bind]. rewrite Hdry. unfold build_image_path. rewrite Hi.
    rewrite (ready_open _ _ _ HW'). cbn [w_fs]. fold o.
    assert (S1 : pk (hset (w_fs w') o (HFile [])) p tr = pk (hset (w_fs w) o (HFile [])) p tr).
    { unfold pk, std_overlay_packer. rewrite (create_alike fuel m file_wdev _ (overlay tr (host_fs (hset (w_fs w) o (HFile [])) ls p))); [reflexivity|].
      apply overlay_alike, host_alike, outside; auto. }
    rewrite S1. destruct (pk (hset (w_fs w) o (HFile [])) p tr) as [b x]. reflexivity. }
  rewrite (R w (fun q _ => eq_refl) Hc HW) in E.
  assert (Same : (w, r) = (w1, r) -> exists w2, build_image toml mk pk cwd a w1 = (w2, r) /\ forall q, w_fs w2 q = w_fs w1 q).
  { intros Ew. injection Ew as <-. rewrite (R w (fun q _ => eq_refl) Hc HW), E. eauto. }
  destruct cfg as [|r0 cfg0]; [injection E as <- <-; apply Same; reflexivity|].
  destruct (mk (w_fs w) p (r0 :: cfg0)) as [tr|e|e|] eqn:Em; try (injection E as <- <-; apply Same; reflexivity). clear Same.
  destruct (pk (hset (w_fs w) o (HFile [])) p tr) as [b x] eqn:Ep. injection E as <- <-. set (w1 := mkWorld (hset (hset (w_fs w) o (HFile [])) o (HFile b)) None).
  assert (F1 : w_fs w1 o = Some (HFile b)) by apply hset_eq.
  assert (F2 : forall q, q <> o -> w_fs w1 q = w_fs w q) by (intros q Hq; cbn [w1 w_fs]; rewrite !hset_neq by auto; reflexivity).
  rewrite (R w1); [|exact F2|eapply (canonical_again cwd s w w1 o); eauto|eapply (ready_again cwd i w w1); eauto].
  eexists. split; [reflexivity|]. intros q. cbn [w_fs]. destruct (hpath_eqb_spec q o) as [->|Hq]; [rewrite hset_eq, F1; reflexivity|rewrite !hset_neq by auto; reflexivity].
Qed.
Lemma c152_options fuel m wax ls toml cwd rs out s i p w w1 r :
  canonicalize (w_fs w) cwd s = Ok p -> w_fs w p = Some HDir -> ready_for_file cwd i w -> ~ leads_to p (place cwd i) ->
  build_image toml (std_overlay fuel m wax ls) (std_overlay_packer fuel m ls) cwd (by_options rs out false (Some s) (Some i)) w = (w1, r) ->
  exists w2, build_image toml (std_overlay fuel m wax ls) (std_overlay_packer fuel m ls) cwd (by_options rs out false (Some s) (Some i)) w1 = (w2, r)
    /\ forall q, w_fs w2 q = w_fs w1 q.
Proof.
  intros Hc Hp HW Hn. apply (c152_build_main _ _ _ _ _ _ _ s i p) with (rr := let* rules := mapM parse_rule rs in Ok (rules, None)); auto.
Qed.
Lemma c152_spec fuel m wax ls toml cwd s i p b w w1 r :
  canonicalize (w_fs w) cwd s = Ok p -> w_fs w p = Some HDir -> w_fs w (p ++ [TOML]) = Some (HFile b) -> ready_for_file cwd i w -> ~ leads_to p (place cwd i) ->
  build_image toml (std_overlay fuel m wax ls) (std_overlay_packer fuel m ls) cwd (by_spec false (Some s) (Some i)) w = (w1, r) ->
  exists w2, build_image toml (std_overlay fuel m wax ls) (std_overlay_packer fuel m ls) cwd (by_spec false (Some s) (Some i)) w1 = (w2, r)
    /\ forall q, w_fs w2 q = w_fs w1 q.
Proof.
  intros Hc Hp Hb HW Hn. apply (c152_build_main _ _ _ _ _ _ _ s i p) with (rr := let* x := ok_or (toml b) HRefused in let* more := spec_rules x in Ok (more, Some x)); auto.
  intros w' K Hc'. cbn [b_spec by_spec]. assert (Hp' : w_fs w' p = Some HDir) by (rewrite K; [exact Hp|intros ->; apply Hn; exists []; rewrite app_nil_r; reflexivity]).
  assert (Hb' : w_fs w' (p ++ [TOML]) = Some (HFile b)) by (rewrite K; [exact Hb|intros E; apply Hn; exists [TOML]; auto]).
  destruct (canonical_walk _ _ _ _ Hc' Hp') as (W & Hnul & _). pose proof (walk_locate _ _ _ _ _ _ W Hnul toml_name Hb') as Hl.
  unfold build_rules. cbn [b_map by_spec bind]. unfold exists_at, read_file. rewrite Hl. cbn [bind]. rewrite Hb'. reflexivity.
Qed.

(** ** An image inside the source *)
Definition tw_tree : ftree := FDir [(text "a", FFile [x68; x69])].
Definition tw_world : world := planted (text "d") tw_tree.
(** The pattern that matches everything. *)
Definition tw_wax (pat : str) : option glob := Some (fun s => Some (fun i => if i =? 0 then Some s else None)).
Definition tw_build (ls : lister) : hprog (option (trie mapent)) :=
  build_image (fun _ => None) (std_overlay 10 Debug tw_wax ls) (std_overlay_packer 10 Debug ls) []
    (by_options [text "**:/{0}"] None false (Some (text "d")) (Some (text "d/i"))).
Definition tw_bytes (w : world) : list byte := match w_fs w [text "d"; text "i"] with Some (HFile b) => b | _ => [] end.
Notation tw_first := (tw_build (planted_ls tw_tree) tw_world).
Definition tw_img : list byte := tw_bytes (fst tw_first).
Definition tw_tree2 : ftree := FDir [(text "a", FFile [x68; x69]); (text "i", FFile tw_img)].
Notation tw_second := (tw_build (planted_ls tw_tree2) (fst tw_first)).
Definition tw_names (b : list byte) : res rerr (list str) :=
  let* v := read_volume (file_dev b) in let* l := file_tree 10 (file_dev b) (v_root v) in Ok (map (fun x => name_str (snd x)) l).
Lemma tw_run : snd tw_first = Ok None /\ tw_names (tw_bytes (fst tw_first)) = Ok [text "a"] /\ snd tw_second = Ok None /\ tw_names (tw_bytes (fst tw_second)) = Ok [text "i"; text "a"].
Proof. vm_compute. ssplit; reflexivity. Qed.
Lemma tw_build_eq ls w : tw_build ls w = build_image (fun _ => None) (std_overlay 10 Debug tw_wax ls) (std_overlay_packer 10 Debug ls) []
    (by_options [text "**:/{0}"] None false (Some (text "d")) (Some (text "d/i"))) w.
Proof. reflexivity. Qed.
Lemma tw_hosts1 : hosts (w_fs tw_world) (planted_ls tw_tree) [text "d"] tw_tree.
Proof. apply planted_hosts, (source_b_ok tw_tree); vm_compute; reflexivity. Qed.
Lemma tw_writes w1 : tw_build (planted_ls tw_tree) tw_world = (w1, Ok None) ->
  exists img, w_fs w1 [text "d"; text "i"] = Some (HFile img) /\ forall q, q <> [text "d"; text "i"] -> w_fs w1 q = w_fs tw_world q.
Proof.
  intros E.
  assert (H1 : proper tw_tree) by (apply (source_b_ok tw_tree); vm_compute; reflexivity).
  assert (H2 : no_dotdot (text "d/i")) by (intros H; vm_compute in H; repeat (destruct H as [H|H]; [discriminate|]); exact H).
  assert (H3 : w_fs tw_world (place [] (text "d/i")) = None) by (vm_compute; reflexivity).
  assert (H4 : mapM parse_rule [text "**:/{0}"] = Ok [(text "**", text "/{0}")]) by (vm_compute; reflexivity).
  assert (H5 : canonicalize (w_fs tw_world) [] (text "d") = Ok [text "d"]) by (vm_compute; reflexivity).
  rewrite tw_build_eq in E.
  destruct (c83_lemma 10 Debug tw_wax (planted_ls tw_tree) _ [] [text "**:/{0}"] _ None (text "d") (text "d/i") tw_world w1 [text "d"] tw_tree
    H4 H5 tw_hosts1 eq_refl H1 H2 (or_intror H3) E) as (_ & _ & _ & img & _ & _ & _ & F1 & F2 & _).
  replace (place [] (text "d/i")) with [text "d"; text "i"] in F1, F2 by (vm_compute; reflexivity).
  exists img. split; [exact F1|exact F2].
Qed.
Lemma tw_same w1 img : w_fs w1 [text "d"; text "i"] = Some (HFile img) -> (forall q, q <> [text "d"; text "i"] -> w_fs w1 q = w_fs tw_world q) ->
  forall q, w_fs w1 q = w_fs (planted (text "d") (FDir [(text "a", FFile [x68; x69]); (text "i", FFile img)])) q.
Proof.
  intros F1 F2 q. destruct (hpath_eqb_spec q [text "d"; text "i"]) as [->|Hq]; [rewrite F1; reflexivity|].
  rewrite F2 by auto. unfold tw_world, planted. cbn [w_fs]. destruct q as [|n q]; [reflexivity|]. destruct (str_eqb n (text "d")) eqn:En; [|reflexivity].
  apply str_eqb_spec in En as ->. destruct q as [|c q]; [reflexivity|]. unfold tw_tree. cbn [lookup_tree find fst]. destruct (str_eqb c (text "a")) eqn:Ea; [reflexivity|].
  destruct (str_eqb c (text "i")) eqn:Ei; [|reflexivity]. apply str_eqb_spec in Ei as ->. destruct q as [|x q]; [congruence|reflexivity].
Qed.
Lemma tw_hosts2 : hosts (w_fs (fst tw_first)) (planted_ls tw_tree2) [text "d"] tw_tree2.
Proof.
  assert (P2 : source tw_tree2) by (apply source_b_ok; vm_compute; reflexivity).
  destruct (planted_hosts (text "d") tw_tree2) as (H1 & H2 & H3); [apply P2|].
  assert (F : forall q, w_fs (fst tw_first) q = w_fs (planted (text "d") tw_tree2) q).
  { pose proof tw_run as (R & _). destruct (tw_writes (fst tw_first)) as (img & F1 & F2).
    { rewrite <- R. apply surjective_pairing. }
    assert (Ei : tw_img = img) by (unfold tw_img, tw_bytes; rewrite F1; reflexivity).
    intros q. unfold tw_tree2. rewrite Ei. exact (tw_same _ _ F1 F2 q). }
  unfold hosts. ssplit; [intros p t' H; rewrite F; auto|intros p x; rewrite F; apply H2|exact H3].
Qed.
Lemma c152_inside : exists wax rs build ls ls' t t' w w1 w2 img img',
  (forall ls w, build ls w = build_image (fun _ => None) (std_overlay 10 Debug wax ls) (std_overlay_packer 10 Debug ls) []
                               (by_options rs None false (Some (text "d")) (Some (text "d/i"))) w)
  /\ rs = [text "**:/{0}"] /\ (forall pat s, exists c, wax pat = Some c /\ exists f, c s = Some f /\ f 0 = Some s)
  /\ hosts (w_fs w) ls [text "d"] t /\ build ls w = (w1, Ok None) /\ w_fs w1 [text "d"; text "i"] = Some (HFile img)
  /\ hosts (w_fs w1) ls' [text "d"] t' /\ build ls' w1 = (w2, Ok None) /\ w_fs w2 [text "d"; text "i"] = Some (HFile img')
  /\ tw_names img = Ok [text "a"] /\ tw_names img' = Ok [text "i"; text "a"].
Proof.
  exists tw_wax, [text "**:/{0}"], tw_build, (planted_ls tw_tree), (planted_ls tw_tree2), tw_tree, tw_tree2, tw_world, (fst tw_first), (fst tw_second), (tw_bytes (fst tw_first)), (tw_bytes (fst tw_second)).
  pose proof tw_run as (R1 & R2 & R3 & R4).
  assert (B : forall w, tw_bytes w <> [] -> w_fs w [text "d"; text "i"] = Some (HFile (tw_bytes w))).
  { intros w. unfold tw_bytes. destruct (w_fs w [text "d"; text "i"]) as [[|b]|]; congruence. }
  ssplit; [exact tw_build_eq|reflexivity| |exact tw_hosts1| | |exact tw_hosts2| | |exact R2|exact R4].
  - intros pat s. eexists. split; [reflexivity|]. eexists. split; reflexivity.
  - rewrite <- R1. apply surjective_pairing.
  - apply B. intros E. rewrite E in R2. vm_compute in R2. discriminate R2.
  - rewrite <- R3. apply surjective_pairing.
  - apply B. intros E. rewrite E in R4. vm_compute in R4. discriminate R4.
Qed.
