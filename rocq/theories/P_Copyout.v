(** Proofs about copying without duplicated handles (C116, C117). *)
From Verif Require Import M_Base M_Util M_Layout M_Read M_Img M_Remap M_Cli M_Unpack M_Exiso M_Host M_Extract M_Copyout.
From Verif Require Import S_Codec S_Read S_Img S_Check S_Cli S_Unpack S_Exiso S_Fault S_Extract S_Copyout P_Base P_Find P_Src P_Check P_Cli P_Mono P_Host P_Unpack P_Exiso P_Fault P_Extract.
From Coq Require Import Init.Byte Lia.
From Coq Require Import List.
Local Open Scope N_scope.

(** ** One file *)
Definition lacks (file : list byte) (base : N) (r : region) : Prop := r_size r <> 0 /\ len file < base + 2048 * r_sector r + r_size r.

Lemma read_all file base x : r_size (d_region x) <> 0 ->
  read_data_all (offset_dev (file_dev file) base) x
  = if base + 2048 * r_sector (d_region x) + r_size (d_region x) <=? len file then Ok (file_data file base (d_region x)) else Err (IOError UnexpectedEof).
Proof.
  intros H. unfold read_data_all, region_offset. apply N.eqb_neq in H. rewrite H. apply N.eqb_neq in H. destruct (N.leb_spec (r_size (d_region x)) 0); [lia|]. cbn [bind].
  unfold offset_dev, file_dev. apply N.eqb_neq in H. rewrite H. unfold SECTOR_SIZE, file_data. replace (2048 * r_sector (d_region x) + 0 + base) with (base + 2048 * r_sector (d_region x)) by lia.
  destruct (_ <=? len file); reflexivity.
Qed.

Lemma filed_keeps p h h' ip file : filed p h h' -> h ip = Some (HFile file) -> ip <> p -> h' ip = Some (HFile file).
Proof. intros H Hi Hn. destruct (H ip) as [E|(E & _)]; congruence. Qed.

Lemma copy_dup dup cwd ip base s x w file : w_fs w ip = Some (HFile file) -> no_dotdot s -> (dirlike s = false -> ip <> place cwd s) ->
  w_fs (fst (copy_file_dup dup cwd ip base s x w)) ip = Some (HFile file)
  /\ (copy_file_dup dup cwd ip base s x w = uhost (copy_file cwd file base s (d_region x) w)
      /\ (snd (copy_file_dup dup cwd ip base s x w) = Ok tt -> dup = false -> ~ lacks file base (d_region x))
    \/ dup = false /\ lacks file base (d_region x) /\ exists e, snd (copy_file_dup dup cwd ip base s x w) = Err (URead e)).
Proof.
  intros Hw Hs Hp. unfold copy_file_dup, copy_file, hbind. pose proof (open_filed cwd s w Hs) as P. destruct (open_trunc cwd s w) as [w1 [p|e|e|]]; cbn [ucall fst].
  2,3,4: rewrite P; split; [exact Hw|left; split; [reflexivity|discriminate]].
  destruct P as (-> & Dl & Fi & (b & Hb)). specialize (Hp Dl). pose proof (filed_keeps _ _ _ _ _ Fi Hw Hp) as Hw1.
  assert (K : forall y, w_fs (fst (write_new (place cwd s) y w1)) ip = Some (HFile file)) by (intros y; eapply filed_keeps; [eapply write_filed; exact Hb|exact Hw1|exact Hp]).
  unfold region_is_empty. destruct (N.eqb_spec (r_size (d_region x)) 0) as [Ez|Ez]; [split; [exact Hw1|left; split; [reflexivity|intros _ _ (L & _); contradiction]]|].
  unfold image_now. rewrite Hw1. destruct dup; [split; [apply K|left; split; [reflexivity|discriminate]]|]. rewrite read_all by exact Ez.
  destruct (N.leb_spec (base + 2048 * r_sector (d_region x) + r_size (d_region x)) (len file)) as [L|L]; cbn [uread].
  - split; [apply K|]. left. split; [reflexivity|]. intros _ _ (_ & L'). lia.
  - split; [exact Hw1|]. right. ssplit; auto; [split; auto|]. eexists. reflexivity.
Qed.

(** ** Many files *)
Definition missing (file : list byte) (base : N) (x : str * dentry) : Prop := d_namelen (d_dirent (e_node (snd x))) <> 0 /\ short file base (snd x).

Lemma loop_dup cwd file ip base dest tree : no_dotdot dest -> ~ strictly_below (place cwd dest) ip ->
  Forall (fun x => no_dotdot (fst x)) tree -> Forall (fun x => harmless (name_str (snd x))) tree ->
  forall dup w, w_fs w ip = Some (HFile file) ->
  w_fs (fst (copyout_loop_dup dup cwd ip base dest tree w)) ip = Some (HFile file)
  /\ (copyout_loop_dup dup cwd ip base dest tree w = uhost (copyout_loop cwd file base dest tree w)
      /\ (snd (copyout_loop_dup dup cwd ip base dest tree w) = Ok tt -> forall i x, nth_error tree i = Some x -> dup i = false -> ~ missing file base x)
    \/ (exists i x, nth_error tree i = Some x /\ dup i = false /\ missing file base x) /\ exists e, snd (copyout_loop_dup dup cwd ip base dest tree w) = Err (URead e)).
Proof.
  intros Hd Hip HD HN. induction tree as [|[dir e] tree IH]; intros dup w Hw; [split; [exact Hw|left; split; [reflexivity|intros _ [|i] x; discriminate]]|].
  inversion HD as [|? ? D1 D2]; subst. inversion HN as [|? ? N1 N2]; subst. cbn [fst snd] in *. specialize (IH D2 N2).
  cbn [copyout_loop copyout_loop_dup]. cbv zeta. set (dirname := pjoin dest (trim_start dir)). set (file_path := pjoin dirname (name_str e)).
  assert (C1 : pcomps dirname = pcomps dest ++ pcomps dir) by (unfold dirname; rewrite pcomps_pjoin, trim_comps by apply trim_relative; reflexivity).
  assert (S1 : hstart cwd dirname = hstart cwd dest) by (apply hstart_pjoin, trim_relative).
  pose proof (harmless_relative _ N1) as R.
  assert (C2 : pcomps file_path = pcomps dest ++ pcomps dir ++ pcomps (name_str e)) by (unfold file_path; rewrite pcomps_pjoin, C1, app_assoc by auto; reflexivity).
  assert (S2 : hstart cwd file_path = hstart cwd dest) by (unfold file_path; rewrite hstart_pjoin by auto; exact S1).
  assert (K1 : no_dotdot dirname) by (unfold no_dotdot; rewrite C1, in_app_iff; intros [Hi|Hi]; auto).
  assert (K2 : no_dotdot file_path) by (unfold no_dotdot; rewrite C2, !in_app_iff; intros [Hi|[Hi|Hi]]; auto; destruct N1 as (_ & N1); auto).
  pose proof (create_dir_all_paved cwd dirname w K1) as P. rewrite C1, S1 in P. apply paved_stays in P. unfold hbind at 1.
  assert (Hw1 : w_fs (fst (create_dir_all cwd dirname w)) ip = Some (HFile file)) by (eapply stays_keeps; [exact P|exact Hw|exact Hip]). clear P.
  destruct (create_dir_all cwd dirname w) as [w1 [[]|x|x|]]; cbn [ucall fst] in *.
  2,3,4: split; [exact Hw1|left; split; [reflexivity|discriminate]].
  unfold hbind. set (A := if is_directory (d_dirent (e_node e)) then uhost (create_dir cwd file_path w1)
     else if d_namelen (d_dirent (e_node e)) =? 0 then (w1, Ok tt) else copy_file_dup (dup 0%nat) cwd ip base file_path (d_dirent (e_node e)) w1).
  set (B := (if is_directory (d_dirent (e_node e)) then create_dir cwd file_path
     else if d_namelen (d_dirent (e_node e)) =? 0 then hret tt else copy_file cwd file base file_path (d_region (d_dirent (e_node e)))) w1).
  assert (G : w_fs (fst A) ip = Some (HFile file) /\ (A = uhost B /\ (snd A = Ok tt -> dup 0%nat = false -> ~ missing file base (dir, e))
     \/ dup 0%nat = false /\ missing file base (dir, e) /\ exists x, snd A = Err (URead x))).
  { unfold A, B. assert (Ei : is_directory (d_dirent (e_node e)) = is_dir e) by reflexivity. unfold missing, short. cbn [snd]. rewrite Ei. destruct (is_dir e) eqn:Ed.
    - pose proof (create_dir_paved cwd file_path w1 K2) as P. rewrite C2, S2 in P. apply paved_stays in P.
      split; [unfold uhost; cbn [fst]; eapply stays_keeps; [exact P|exact Hw1|exact Hip]|]. left. split; [reflexivity|]. intros _ _ (_ & X & _). discriminate.
    - destruct (N.eqb_spec (d_namelen (d_dirent (e_node e))) 0) as [Ez|Ez]; [split; [exact Hw1|left; split; [reflexivity|intros _ _ (X & _); contradiction]]|].
      assert (Hne : dirlike file_path = false -> ip <> place cwd file_path).
      { intros Dl ->. apply Hip. unfold place, strictly_below. rewrite C2, S2. destruct (pcomps dir ++ pcomps (name_str e)) as [|n q] eqn:El; [|exists n, q; rewrite app_assoc; reflexivity].
        apply app_eq_nil in El as (_ & El). apply no_comps_dirlike in El. unfold file_path in Dl. rewrite dirlike_pjoin in Dl by auto. congruence. }
      destruct (copy_dup (dup 0%nat) cwd ip base file_path (d_dirent (e_node e)) w1 file Hw1 K2 Hne) as (X1 & [(X2 & X3)|(X2 & X3 & X4)]).
      + split; [exact X1|]. left. split; [exact X2|]. intros F1 F2 (_ & _ & F3). apply (X3 F1 F2). exact F3.
      + split; [exact X1|]. right. destruct X3 as (X3 & X5). ssplit; auto. }
  clearbody A B. destruct G as (G1 & [(-> & G3)|(G2 & G3 & (x & G4))]).
  - destruct B as [w2 [[]|x|x|]]; cbn [uhost map_err fst snd] in *.
    2,3,4: split; [exact G1|left; split; [reflexivity|discriminate]].
    destruct (IH (fun k => dup (S k)) w2 G1) as (X1 & [(X2 & X3)|((i & x & X2 & X3 & X4) & X5)]); (split; [exact X1|]).
    + left. split; [exact X2|]. intros F [|i] x Hx Hi; [injection Hx as <-; auto|]. apply (X3 F i x Hx Hi).
    + right. split; [|exact X5]. exists (S i), x. auto.
  - destruct A as [w2 r]. cbn [fst snd] in *. subst r. split; [exact G1|]. right. split; [|eexists; reflexivity]. exists 0%nat, (dir, e). auto.
Qed.

(** ** The commands *)
Lemma dir_dup fuel dup cwd file ip base dest r w : no_dotdot dest -> ~ strictly_below (place cwd dest) ip -> w_fs w ip = Some (HFile file) ->
  (forall tree, file_tree fuel (offset_dev (file_dev file) base) r = Ok tree -> Forall (fun x => harmless (name_str (snd x))) tree) ->
  let R := copyout_directory_dup fuel dup cwd ip base dest r w in
  w_fs (fst R) ip = Some (HFile file)
  /\ (R = copyout_directory fuel cwd file base dest r w
      /\ (snd R = Ok tt -> forall tree, file_tree fuel (offset_dev (file_dev file) base) r = Ok tree -> forall i x, nth_error tree i = Some x -> dup i = false -> ~ missing file base x)
    \/ (exists tree i x, file_tree fuel (offset_dev (file_dev file) base) r = Ok tree /\ nth_error tree i = Some x /\ dup i = false /\ missing file base x) /\ exists e, snd R = Err (URead e)).
Proof.
  intros Hd Hip Hw HN. cbv zeta. unfold copyout_directory_dup, copyout_directory. replace (image_now ip w) with file by (unfold image_now; rewrite Hw; reflexivity).
  destruct (file_tree fuel (offset_dev (file_dev file) base) r) as [tree|e|e|] eqn:E; cbn [uread fst snd].
  2,3,4: split; [exact Hw|left; split; [reflexivity|discriminate]].
  specialize (HN tree eq_refl). destruct (loop_dup cwd file ip base dest tree Hd Hip (harmless_dirs _ (file_tree_order _ _ _ _ E) HN) HN dup w Hw) as (X1 & [(X2 & X3)|((i & x & X2 & X3 & X4) & X5)]); (split; [exact X1|]).
  - left. split; [exact X2|]. intros F t [= <-]. apply X3. exact F.
  - right. split; [|exact X5]. exists tree, i, x. auto.
Qed.

Lemma unpack_cases fuel dup cwd s dest w ip file : no_dotdot dest -> lists_harmless fuel file -> canonicalize (w_fs w) cwd s = Ok ip -> w_fs w ip = Some (HFile file) ->
  ~ strictly_below (place cwd dest) ip ->
  let R := unpack_dup fuel dup cwd s (Some dest) w in
  w_fs (fst R) ip = Some (HFile file)
  /\ (R = cmd_unpack fuel cwd s file (Some dest) w
      /\ (snd R = Ok tt -> (forall i, dup i = false) -> all_there fuel file)
    \/ ~ all_there fuel file /\ exists e, snd R = Err (URead e)).
Proof.
  intros Hd HN Hc Hi Hb. cbv zeta. unfold unpack_dup, cmd_unpack, unpack_target, open_raw, existing, all_there. rewrite Hc. cbn [bind]. rewrite Hi. cbn [ok_or bind].
  destruct (offset_wrapper_new (file_dev file)) as [base|e|e|] eqn:Eb; cbn [uread fst snd].
  2,3,4: split; [exact Hi|left; split; [reflexivity|discriminate]].
  destruct (read_volume (offset_dev (file_dev file) base)) as [v|e|e|] eqn:Ev; cbn [uread fst snd].
  2,3,4: split; [exact Hi|left; split; [reflexivity|discriminate]].
  assert (HT : forall tree, file_tree fuel (offset_dev (file_dev file) base) (v_root v) = Ok tree -> Forall (fun x => harmless (name_str (snd x))) tree).
  { intros tree Et. apply (HN _ v tree) in Et; auto. unfold open_image. rewrite Eb. reflexivity. }
  pose proof (dir_dup fuel dup cwd file ip base dest (v_root v) w Hd Hb Hi HT) as X. cbv zeta in X. destruct X as (X1 & [(X2 & X3)|((tree & i & x & T1 & T2 & T3 & T4 & T5) & X5)]); (split; [exact X1|]).
  - left. split; [exact X2|]. intros F HF base' v' tree [= <-] Ev' Et. rewrite Ev in Ev'. injection Ev' as <-. apply Forall_forall. intros x Hx H1 H2. apply In_nth_error in Hx as (i & Hx).
    apply (X3 F tree Et i x Hx (HF i)). split; assumption.
  - right. split; [|exact X5]. intros H. specialize (H base v tree eq_refl Ev T1). rewrite Forall_forall in H. apply (H x); [eapply nth_error_In; exact T2|exact T4|exact T5].
Qed.

Lemma c116_same_lemma fuel dup cwd s dest w ip file : no_dotdot dest -> lists_harmless fuel file -> all_there fuel file -> canonicalize (w_fs w) cwd s = Ok ip -> w_fs w ip = Some (HFile file) ->
  ~ strictly_below (place cwd dest) ip -> unpack_dup fuel dup cwd s (Some dest) w = cmd_unpack fuel cwd s file (Some dest) w.
Proof. intros Hd HN HT Hc Hi Hb. destruct (unpack_cases fuel dup cwd s dest w ip file Hd HN Hc Hi Hb) as (_ & [(X & _)|(X & _)]); [exact X|contradiction]. Qed.

Lemma c116_success_lemma fuel dup cwd s dest w w' ip file : no_dotdot dest -> lists_harmless fuel file -> canonicalize (w_fs w) cwd s = Ok ip -> w_fs w ip = Some (HFile file) ->
  ~ strictly_below (place cwd dest) ip -> unpack_dup fuel dup cwd s (Some dest) w = (w', Ok tt) ->
  cmd_unpack fuel cwd s file (Some dest) w = (w', Ok tt) /\ ((forall i, dup i = false) -> all_there fuel file).
Proof.
  intros Hd HN Hc Hi Hb HR. pose proof (unpack_cases fuel dup cwd s dest w ip file Hd HN Hc Hi Hb) as X. cbv zeta in X. rewrite HR in X. cbn [fst snd] in X.
  destruct X as (_ & [(X & Y)|(_ & (e & X))]); [split; [congruence|auto]|discriminate].
Qed.

Lemma contained_not_short file base e t : entry_is (offset_dev (file_dev file) base) e t -> ~ short file base e.
Proof.
  intros (E1 & E2) (S1 & S2 & S3). destruct t as [b|cs]; [|rewrite E1 in S1; discriminate]. destruct (read_contained _ _ _ E2) as (_ & R).
  unfold region_of in *. rewrite (read_all file base (d_dirent (e_node e)) S2) in R. destruct (N.leb_spec (base + 2048 * r_sector (d_region (d_dirent (e_node e))) + r_size (d_region (d_dirent (e_node e)))) (len file)); [lia|discriminate].
Qed.

Lemma whole_listing file base d t r : d = offset_dev (file_dev file) base -> lawful d -> contains d t r -> is_fdir t = true ->
  exists n, forall k, (n <= k)%nat -> forall tree, file_tree k d r = Ok tree -> Forall (fun x => ~ short file base (snd x)) tree.
Proof.
  intros Ed HL HC Ht. destruct (unpack_list d t r HL Ht HC) as (out & ns & (n & O) & HE & HF). exists n. intros k Hk tree Et. rewrite (O k Hk) in Et. injection Et as <-.
  clear -HF Ed. induction HF as [|x y out ns (q & N1 & N2 & N3 & N5) HF IH]; constructor; auto. subst d. eapply contained_not_short. exact N3.
Qed.

Lemma c116_packed_lemma dup cwd s dest w ip file t : canonicalize (w_fs w) cwd s = Ok ip -> w_fs w ip = Some (HFile file) -> is_image file t -> unix_tree t -> ready_for cwd dest t w ->
  exists w', returns (fun fuel => unpack_dup fuel dup cwd s (Some dest) w) (w', Ok tt) /\ restored (place cwd dest) t (w_fs w) (w_fs w') /\ w_fs w' ip = Some (HFile file).
Proof.
  intros Hc Hi HI HU HW. destruct (c103_restores cwd s dest w ip file t Hc Hi HI HU HW) as (w' & (k & R) & W & Hi'). exists w'. split; [|split; [exact W|exact Hi']].
  assert (HN : forall fuel, lists_harmless fuel file) by (intros fuel; eapply harmless_image; [exact HI|]; intros p cs Hq m Hm; apply unix_harmless; apply (HU p cs Hq m Hm)).
  assert (Hb : ~ strictly_below (place cwd dest) ip) by (intros Hb; destruct HW as (_ & _ & _ & _ & _ & (_ & HF) & _); rewrite (HF _ Hb) in Hi; discriminate).
  assert (Hd : no_dotdot dest) by apply HW.
  destruct HI as (d & r & Ho & (v & Hv & ->) & Ht & HC). destruct (open_image_base _ _ Ho) as (base & Hb0 & Ed). destruct (whole_listing file base d t (v_root v) Ed (image_lawful _ _ Ho) HC Ht) as (n & HS).
  exists (Nat.max n k). intros fuel Hf. rewrite (c116_same_lemma fuel dup cwd s dest w ip file); auto; [rewrite <- (unpack_same fuel cwd s dest w ip file); auto; apply R; lia|].
  intros base' v' tree E1 E2 E3. rewrite Hb0 in E1. injection E1 as <-. rewrite <- Ed, Hv in E2. injection E2 as <-. rewrite <- Ed in E3. eapply Forall_impl; [|apply (HS fuel); [lia|exact E3]]. auto.
Qed.

(** ** Copying out *)
Lemma clear_below cwd dest ip : clear_of cwd dest ip -> ~ strictly_below (place cwd dest) ip /\ ip <> place cwd dest.
Proof. intros H. split; [intros (n & p & ->)|intros ->]; apply H; [eexists; reflexivity|exists []; rewrite app_nil_r; reflexivity]. Qed.

Lemma copyout_cases fuel dup cwd s src dest w ip file : no_dotdot dest -> selects_harmless fuel file src -> canonicalize (w_fs w) cwd s = Ok ip -> w_fs w ip = Some (HFile file) ->
  clear_of cwd dest ip ->
  let R := copyout_dup fuel dup cwd s src dest w in
  w_fs (fst R) ip = Some (HFile file) /\ (R = cmd_copyout fuel cwd file src dest w \/ exists e, (exists i, dup i = false) /\ snd R = Err (URead e)).
Proof.
  intros Hd HN Hc Hi Hb. apply clear_below in Hb as (Hb1 & Hb2). cbv zeta. unfold copyout_dup, cmd_copyout, open_raw, existing. rewrite Hc. cbn [bind]. rewrite Hi. cbn [ok_or bind].
  destruct (offset_wrapper_new (file_dev file)) as [base|e|e|] eqn:Eb; cbn [uread fst snd].
  2,3,4: split; [exact Hi|left; reflexivity].
  destruct (read_volume (offset_dev (file_dev file) base)) as [v|e|e|] eqn:Ev; cbn [uread fst snd].
  2,3,4: split; [exact Hi|left; reflexivity].
  assert (D : forall r, selected fuel file src base r -> w_fs (fst (copyout_directory_dup fuel dup cwd ip base dest r w)) ip = Some (HFile file)
    /\ (copyout_directory_dup fuel dup cwd ip base dest r w = copyout_directory fuel cwd file base dest r w \/ exists e, (exists i, dup i = false) /\ snd (copyout_directory_dup fuel dup cwd ip base dest r w) = Err (URead e))).
  { intros r Hr. pose proof (dir_dup fuel dup cwd file ip base dest r w Hd Hb1 Hi (fun tree => HN base r tree Hr)) as X. cbv zeta in X.
    destruct X as (X1 & [(X2 & _)|((tree & i & x & T1 & T2 & T3 & T4) & (e & X5))]); (split; [exact X1|]); [left; exact X2|right; eauto]. }
  destruct (str_eqb src [SLASH]) eqn:Es; [apply D; exists v; ssplit; auto; left; split; [apply str_eqb_spec; exact Es|reflexivity]|].
  destruct (walk_path fuel (offset_dev (file_dev file) base) (v_root v) src) as [e|e|e|] eqn:Ew; cbn [uread fst snd].
  2,3,4: split; [exact Hi|left; reflexivity].
  rewrite is_dir_table. destruct (is_dir e) eqn:Ee; [apply D; exists v; ssplit; auto; right; exists e; auto|].
  destruct (copy_dup (dup 0%nat) cwd ip base dest (d_dirent (e_node e)) w file Hi Hd (fun _ => Hb2)) as (X1 & [(X2 & _)|(X2 & _ & (x & X4))]); (split; [exact X1|]); [left; exact X2|right; eauto].
Qed.

Lemma harmless_tree fuel d t r tree : lawful d -> contains d t r -> is_fdir t = true -> unix_tree t -> file_tree fuel d r = Ok tree -> Forall (fun x => harmless (name_str (snd x))) tree.
Proof.
  intros HL HC Ht HU Et. assert (HH : every_dir (fun cs => forall n, In n (map fst cs) -> harmless n) t) by (intros p cs Hq m Hm; apply unix_harmless; apply (HU p cs Hq m Hm)). clear HU.
  destruct (unpack_list d t r HL Ht HC) as (out & ns & (n & O) & (_ & HE) & HF).
  pose proof (file_tree_mono _ _ (dle_refl d) fuel (Nat.max n fuel) _ _ ltac:(lia) Et) as M. rewrite O in M by lia. injection M as <-.
  assert (HI : forall p t', In (p, t') ns -> at_path t p t') by (intros p t' Hi; apply HE; exact Hi). clear -HF HI HH.
  induction HF as [|[dir e] [p t'] out ns (q & E1 & E2 & E3 & E4) HF IH]; constructor; [|apply IH; intros p' t'' Hi; apply HI; right; exact Hi]. cbn [fst snd] in *.
  specialize (HI p t' (or_introl eq_refl)). subst p. clear -HI HH. revert t HI HH. induction q as [|a q IHq]; intros t HI HH; inversion HI as [|cs ? t1 ? ? Hin Hat]; subst.
  - apply (HH [] cs (at_here _)). apply (in_map fst) in Hin. exact Hin.
  - apply (IHq t1); auto. intros p cs' Hp. apply (HH (a :: p)). eapply at_child; eauto.
Qed.

Lemma c117_file_lemma dup cwd s ip file src dest t n b w : canonicalize (w_fs w) cwd s = Ok ip -> w_fs w ip = Some (HFile file) -> clear_of cwd dest ip -> is_image file t -> selects t src n (FFile b) -> ready_for_file cwd dest w ->
  exists w', returns (fun fuel => copyout_dup fuel dup cwd s src dest w) (w', Ok tt)
    /\ forall q, w_fs w' q = if hpath_eqb q (place cwd dest) then Some (HFile b) else w_fs w q.
Proof.
  intros Hc Hi Hb HI HS HR. pose proof (c70_file cwd file src dest t n b w HI HS HR) as (w' & (k & R) & W). exists w'. split; [|exact W].
  destruct HI as (d & r & Ho & (v & Hv & ->) & Ht & HC). pose proof (image_lawful _ _ Ho) as HL. destruct (open_image_base _ _ Ho) as (base & Hb0 & Ed).
  pose proof (selects_not_slash _ _ _ _ HS) as Hsl. destruct HS as (segs & HPa & HN). destruct (contains_found d _ _ _ _ HN _ HC) as (e & L & E1 & E2 & E3).
  destruct (c31_lemma _ _ _ _ _ HL HPa L) as (k0 & Hk0). exists (Nat.max k k0). intros fuel Hf. rewrite <- (R fuel) by lia.
  unfold copyout_dup, cmd_copyout, open_raw, existing. rewrite Hc. cbn [bind]. rewrite Hi. cbn [ok_or bind]. rewrite Hb0. cbn [uread]. rewrite <- Ed, Hv. cbn [uread]. rewrite Hsl, (Hk0 fuel) by lia. cbn [uread].
  rewrite is_dir_table, E2. cbn [is_fdir]. apply clear_below in Hb as (_ & Hb).
  destruct (copy_dup (dup 0%nat) cwd ip base dest (d_dirent (e_node e)) w file Hi) as (_ & [(X2 & _)|(_ & X3 & _)]); [apply HR|auto|exact X2|]. exfalso.
  apply (contained_not_short file base e (FFile b)); [rewrite <- Ed; split; [exact E2|exact E3]|]. split; [exact E2|exact X3].
Qed.

Lemma c117_dir_lemma dup cwd s ip file src dest t cs w : canonicalize (w_fs w) cwd s = Ok ip -> w_fs w ip = Some (HFile file) -> is_image file t -> unix_tree t -> selects_dir t src cs -> ready_for cwd dest (FDir cs) w ->
  exists w', returns (fun fuel => copyout_dup fuel dup cwd s src dest w) (w', Ok tt)
    /\ restored (place cwd dest) (FDir cs) (w_fs w) (w_fs w').
Proof.
  intros Hc Hi HI HU HS HW. destruct (c70_dir cwd file src dest t cs w HI HU HS HW) as (w' & (k & R) & W). exists w'. split; [|exact W].
  assert (Hb : ~ strictly_below (place cwd dest) ip) by (intros Hb; destruct HW as (_ & _ & _ & _ & _ & (_ & HF) & _); rewrite (HF _ Hb) in Hi; discriminate).
  assert (Hd : no_dotdot dest) by apply HW.
  destruct HI as (d & r & Ho & (v & Hv & ->) & Ht & HC). pose proof (image_lawful _ _ Ho) as HL. destruct (open_image_base _ _ Ho) as (base & Hb0 & Ed).
  assert (G : forall r', contains d (FDir cs) r' -> unix_tree (FDir cs) -> exists n, forall k, (n <= k)%nat -> copyout_directory_dup k dup cwd ip base dest r' w = copyout_directory k cwd file base dest r' w).
  { intros r' HC' HU'. destruct (whole_listing file base d _ r' Ed HL HC' eq_refl) as (n & HS'). exists n. intros k' Hk'.
    assert (HT : forall tree, file_tree k' (offset_dev (file_dev file) base) r' = Ok tree -> Forall (fun x => harmless (name_str (snd x))) tree).
    { intros tree Et. rewrite <- Ed in Et. eapply harmless_tree; eauto. }
    pose proof (dir_dup k' dup cwd file ip base dest r' w Hd Hb Hi HT) as X. cbv zeta in X.
    destruct X as (_ & [(X2 & _)|((tree & i & x & T1 & T2 & T3 & T4 & T5) & _)]); [exact X2|]. exfalso. rewrite <- Ed in T1. specialize (HS' k' Hk' tree T1). rewrite Forall_forall in HS'. apply (HS' x); [eapply nth_error_In; exact T2|exact T5]. }
  destruct HS as [(-> & ->)|(n & HS)].
  - destruct (G _ HC HU) as (n & HG). exists (Nat.max n k). intros fuel Hf. rewrite <- (R fuel) by lia.
    unfold copyout_dup, cmd_copyout, open_raw, existing. rewrite Hc. cbn [bind]. rewrite Hi. cbn [ok_or bind]. rewrite Hb0. cbn [uread]. rewrite <- Ed, Hv. cbn [uread].
    replace (str_eqb [47] [SLASH]) with true by reflexivity. apply HG. lia.
  - pose proof (selects_not_slash _ _ _ _ HS) as Hsl. destruct HS as (segs & HPa & HN). destruct (contains_found d _ _ _ _ HN _ HC) as (e & L & E1 & E2 & E3).
    destruct (c31_lemma _ _ _ _ _ HL HPa L) as (k0 & Hk0).
    assert (HU' : unix_tree (FDir cs)).
    { destruct (names_path _ _ _ _ HN) as (p & Hp & _). intros q cs' Hq. apply (HU (p ++ q)). eapply at_app; eauto. }
    destruct (G _ E3 HU') as (n1 & HG). exists (Nat.max (Nat.max n1 k) k0). intros fuel Hf. rewrite <- (R fuel) by lia.
    unfold copyout_dup, cmd_copyout, open_raw, existing. rewrite Hc. cbn [bind]. rewrite Hi. cbn [ok_or bind]. rewrite Hb0. cbn [uread]. rewrite <- Ed, Hv. cbn [uread].
    rewrite Hsl, (Hk0 fuel) by lia. cbn [uread]. rewrite is_dir_table, E2. cbn [is_fdir]. apply HG. lia.
Qed.

(** ** C99 for the full commands *)
Lemma honest_ucall {A} (x : hprog A) (k : A -> world -> world * res uerr unit) : honest x -> (forall a, honest (k a)) -> honest (fun w => ucall (x w) k).
Proof.
  intros Hx Hk w w' a. cbv beta. destruct (x w) as [w1 [b|e|e|]] eqn:E; cbn [ucall]; try discriminate. rewrite (Hx _ _ _ E). cbn [ucall]. apply Hk.
Qed.
Lemma honest_copy_dup dup cwd ip base s x : honest (copy_file_dup dup cwd ip base s x).
Proof.
  apply (honest_ucall (open_trunc cwd s)); [apply honest_open|]. intros p. destruct (region_is_empty _); [intros w w' a [= <- <-]; reflexivity|].
  destruct dup; intros w w' a; change (image_now ip (unfailing w)) with (image_now ip w); [apply (honest_uhost _ (honest_write p _))|].
  unfold uread. destruct (read_data_all _ _); try discriminate. apply (honest_uhost _ (honest_write p _)).
Qed.
Lemma honest_loop_dup cwd ip base dest tree : forall dup, honest (copyout_loop_dup dup cwd ip base dest tree).
Proof.
  induction tree as [|[dir e] tree IH]; intros dup; [intros w w' a [= <- <-]; reflexivity|]. cbn [copyout_loop_dup]. apply (honest_ucall (create_dir_all cwd _)); [apply honest_create_dir_all|]. intros _ w w' a.
  assert (G : forall file_path, honest (fun w => if is_directory (d_dirent (e_node e)) then uhost (create_dir cwd file_path w)
             else if d_namelen (d_dirent (e_node e)) =? 0 then (w, Ok tt)
             else copy_file_dup (dup 0%nat) cwd ip base file_path (d_dirent (e_node e)) w)).
  { intros fp. destruct (is_directory _); [apply honest_uhost, honest_create_dir|]. destruct (_ =? 0); [intros v v' b [= <- <-]; reflexivity|apply honest_copy_dup]. }
  specialize (G (pjoin (pjoin dest (trim_start dir)) (name_str e)) w). cbv beta in G. match goal with |- match ?X with _ => _ end = _ -> _ => destruct X as [w1 [[]|x|x|]] end; try discriminate.
  rewrite (G _ _ eq_refl). apply IH.
Qed.
Lemma honest_dir_dup fuel dup cwd ip base dest r : honest (copyout_directory_dup fuel dup cwd ip base dest r).
Proof.
  intros w w' a. unfold copyout_directory_dup. change (image_now ip (unfailing w)) with (image_now ip w). unfold uread. destruct (file_tree _ _ _); try discriminate. apply honest_loop_dup.
Qed.
Lemma honest_unpack_dup fuel dup cwd s target : honest (unpack_dup fuel dup cwd s target).
Proof.
  intros w w' a. unfold unpack_dup. destruct (unpack_target s target); try discriminate. unfold open_raw. rewrite unfailing_fs. destruct (existing (w_fs w) cwd s) as [[ip [|file]]|e|p|]; try discriminate.
  unfold uread. destruct (offset_wrapper_new _); try discriminate. destruct (read_volume _); try discriminate. apply honest_dir_dup.
Qed.
Lemma honest_copyout_dup fuel dup cwd s src dest : honest (copyout_dup fuel dup cwd s src dest).
Proof.
  intros w w' a. unfold copyout_dup, open_raw. rewrite unfailing_fs. destruct (existing (w_fs w) cwd s) as [[ip [|file]]|e|p|]; try discriminate.
  unfold uread. destruct (offset_wrapper_new _); try discriminate. destruct (read_volume _); try discriminate. destruct (str_eqb src [SLASH]); [apply honest_dir_dup|].
  destruct (walk_path _ _ _ _) as [e| | |]; try discriminate. destruct (dirent_table _); [apply honest_dir_dup|]. apply honest_copy_dup.
Qed.
