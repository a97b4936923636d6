(** Whole programs (C132, C133). *)
From Verif Require Import M_Base M_Util M_Layout M_Read M_Img M_Check M_Remap M_Cli M_Unpack M_Exiso M_Extract M_Copyout M_Stdfs M_Host M_Main.
From Verif Require Import S_Avl S_Codec S_Read S_Img S_Check S_Cli S_Unpack S_Exiso S_Stdfs S_Fault S_Extract S_Main.
From Verif Require Import P_Base P_Src P_Cli P_Host P_Unpack P_Exiso P_Stdfs P_Fault P_Extract P_Copyout.
From Coq Require Import Init.Byte Lia Permutation Strings.String.
From Coq Require Import List.
Local Close Scope string_scope.
Local Open Scope N_scope.

Lemma finish_parts q w out r : let p := finish_with q ((w, out), r) in
  p_world p = w /\ p_out p = out /\ (exits_ok p <-> r = Ok tt) /\ (exits_failed p <-> exists e, r = Err e)
  /\ (p_status p = Some 101 <-> exists k, r = Panic k) /\ (p_status p = None <-> r = OutOfFuel)
  /\ (forall e, p_error p = Some e <-> q = false /\ r = Err e).
Proof.
  cbv zeta. unfold finish_with, exits_ok, exits_failed. destruct r as [[]|e|k|]; cbn [p_world p_out p_status p_error]; ssplit; auto;
    try (split; [intros ?; first [discriminate | reflexivity | eauto] | intros ?; first [discriminate | reflexivity | match goal with K : exists _, _ |- _ => destruct K; first [discriminate|reflexivity] end]]).
  all: intros x; split; [destruct q; intros [= ->]; auto; discriminate|intros (-> & [= ->]); reflexivity] || (split; [discriminate|intros (_ & K); discriminate K]).
Qed.

(** Honest effects. *)
Definition ehonest (f : effect) : Prop := forall w w' out, f w = ((w', out), Ok tt) -> f (unfailing w) = ((unfailing w', out), Ok tt).
Lemma ehonest_reading cwd s f : ehonest (reading cwd s f).
Proof.
  intros w w' out. unfold reading. rewrite unfailing_fs. destruct (existing (w_fs w) cwd s) as [[p [|b]]| | |]; try discriminate. destruct (f b) as [l r]. intros [= <- <- ->]. reflexivity.
Qed.
Lemma ehonest_quietly f : honest f -> ehonest (quietly f).
Proof. intros Hf w w' out. unfold quietly. destruct (f w) as [w1 r] eqn:E. intros [= <- <- ->]. rewrite (Hf _ _ _ E). reflexivity. Qed.
Lemma ehonest_hosted f : honest f -> ehonest (hosted f).
Proof. intros Hf. apply ehonest_quietly. exact (honest_uhost _ Hf). Qed.
Lemma ehonest_seq f g : ehonest f -> ehonest g -> ehonest (eseq f g).
Proof.
  intros Hf Hg w w' out. unfold eseq. destruct (f w) as [[w1 o1] [[]|e|p|]] eqn:E; try discriminate. rewrite (Hf _ _ _ E). destruct (g w1) as [[w2 o2] r] eqn:E2. intros [= <- <- ->].
  rewrite (Hg _ _ _ E2). reflexivity.
Qed.

Section Any.
Variables (H : list byte -> list byte) (m : build) (fuel : nat) (dup : nat -> bool) (cwd : list str) (pk : packer).
Notation run := (run_command H m fuel dup cwd pk).
Notation mainp := (main H m fuel dup cwd pk).

Lemma ehonest_files f images : ehonest (fold_right (fun i k => eseq (reading cwd i (f i)) k) (fun w => ((w, []), Ok tt)) images).
Proof. induction images as [|i is IH]; cbn [fold_right]; [intros w w' out [= <- <-]; reflexivity|]. apply ehonest_seq; [apply ehonest_reading|exact IH]. Qed.
Lemma ehonest_run c : (forall f, c <> OtherCmd f) -> ehonest (run c).
Proof.
  intros Hc. destruct c; cbn [run_command].
  - apply ehonest_reading. - apply ehonest_reading. - apply ehonest_reading.
  - apply (ehonest_files (fun i => checksum_single H fuel i) images).
  - apply ehonest_reading.
  - apply ehonest_quietly, honest_copyout_dup.
  - apply ehonest_quietly, honest_unpack_dup.
  - apply ehonest_hosted, honest_pack.
  - destruct (Hc f eq_refl).
Qed.
Lemma ehonest_exiso c : ehonest (run_exiso_command fuel cwd pk c).
Proof.
  unfold run_exiso_command. destruct (x_mode c).
  - apply ehonest_hosted, honest_create.
  - apply (ehonest_files (fun i => cmd_tree fuel i) xiso).
  - apply ehonest_quietly, honest_extract.
  - apply ehonest_hosted, honest_repack.
  - apply ehonest_quietly, honest_extract.
Qed.
Lemma finish_honest q f w : ehonest f -> exits_ok (finish_with q (f w)) -> finish_with q (f (unfailing w)) = without_failures (finish_with q (f w)).
Proof.
  intros Hf. destruct (f w) as [[w' out] r] eqn:E. intros Ho. apply finish_parts in Ho. subst r. rewrite (Hf _ _ _ E). reflexivity.
Qed.
Lemma c132_honest_lemma t w : modelled t -> exits_ok (mainp t w) -> mainp t (unfailing w) = without_failures (mainp t w).
Proof.
  intros Hm. destruct t as [[c|c]|c]; cbn [main].
  - apply finish_honest, ehonest_run. intros f ->. exact (Hm f eq_refl).
  - apply finish_honest, ehonest_exiso.
  - apply finish_honest, ehonest_exiso.
Qed.

(** Reading commands change nothing. *)
Lemma reading_same s f w : fst (fst (reading cwd s f w)) = w.
Proof. unfold reading. destruct (existing _ _ _) as [[p [|b]]| | |]; try reflexivity. destruct (f b). reflexivity. Qed.
Lemma seq_same f g : (forall w, fst (fst (f w)) = w) -> (forall w, fst (fst (g w)) = w) -> forall w, fst (fst (eseq f g w)) = w.
Proof.
  intros Hf Hg w. unfold eseq. pose proof (Hf w) as E. destruct (f w) as [[w1 o1] [[]|e|p|]]; auto. cbn [fst] in E. subst w1. pose proof (Hg w) as E. destruct (g w) as [[w1 o2] r]. exact E.
Qed.
Lemma files_same f images w : fst (fst (fold_right (fun i k => eseq (reading cwd i (f i)) k) (fun w => ((w, []), Ok tt)) images w)) = w.
Proof. revert w. induction images as [|i is IH]; cbn [fold_right]; [reflexivity|]. apply seq_same; [apply reading_same|exact IH]. Qed.
Lemma c132_reader_lemma c w : reader c -> p_world (mainp (Core (inl c)) w) = w.
Proof.
  intros Hc. cbn [main]. assert (K : fst (fst (run c w)) = w).
  { destruct c; try contradiction Hc; cbn [run_command]; try apply reading_same. apply (files_same (fun i => checksum_single H fuel i)). }
  destruct (run c w) as [[w' out] r]. destruct (finish_parts false w' out r) as (-> & _). exact K.
Qed.
Lemma c132_list_lemma d q qa del xs w : p_world (mainp (Exiso (mkEx d del q qa (ModeL xs))) w) = w.
Proof.
  cbn [main]. unfold run_exiso_program, run_exiso_command. cbn [x_mode]. pose proof (files_same (fun i => cmd_tree fuel i) xs w) as K.
  change (fst (fst (list_files fuel cwd xs w)) = w) in K. destruct (list_files fuel cwd xs w) as [[w' out] r]. match goal with |- p_world (finish_with ?b _) = _ => destruct (finish_parts b w' out r) as (-> & _) end. exact K.
Qed.

(** The flags -q and -Q. *)
Lemma c132_quiet_lemma c q qa w : let c' := mkEx (x_directory c) (x_delete c) q qa (x_mode c) in
  let p := mainp (Exiso c) w in let p' := mainp (Exiso c') w in
  p_world p' = p_world p /\ p_out p' = p_out p /\ p_status p' = p_status p /\ (q || qa = true -> p_error p' = None)
  /\ (q || qa = false -> x_quiet_error c || x_quiet_all c = false -> p' = p).
Proof.
  cbv zeta. cbn [main]. unfold run_exiso_program. change (run_exiso_command fuel cwd pk (mkEx (x_directory c) (x_delete c) q qa (x_mode c)) w) with (run_exiso_command fuel cwd pk c w).
  destruct (run_exiso_command fuel cwd pk c w) as [[w' out] r]. cbn [x_quiet_error x_quiet_all]. unfold finish_with. destruct r as [[]|e|k|]; cbn [p_world p_out p_status p_error]; ssplit; auto.
  - intros ->. reflexivity.
  - intros -> ->. reflexivity.
Qed.

(** Files of the host. *)
Lemma reading_run w s b f : is_file w cwd s b -> reading cwd s f w = ((w, fst (f b)), map_err URead (snd (f b))).
Proof. intros (p & Hc & Hp). unfold reading, existing. rewrite Hc. cbn [bind]. rewrite Hp. cbn [ok_or bind]. destruct (f b). reflexivity. Qed.
Lemma files_run w (f : str -> list byte -> output) xs : Forall (fun x => is_file w cwd (fst x) (snd x)) xs ->
  let o := fold_right (fun x k => andthen (f (fst x) (snd x)) k) done xs in
  fold_right (fun i k => eseq (reading cwd i (f i)) k) (fun w => ((w, []), Ok tt)) (map fst xs) w = ((w, fst o), map_err URead (snd o)).
Proof.
  cbv zeta. induction 1 as [|[i b] xs Hx _ IH]; cbn [map fold_right fst snd]; [reflexivity|]. unfold eseq. rewrite (reading_run w i b (f i)) by exact Hx.
  destruct (f i b) as [l [[]|e|p|]]; cbn [fst snd map_err]; try reflexivity. unfold andthen at 1 3. cbn [fst snd]. unfold eseq in IH. rewrite IH. reflexivity.
Qed.
Lemma checksum_fold xs : fold_right (fun x k => andthen (checksum_single H fuel (fst x) (snd x)) k) done xs = cmd_checksum H fuel xs.
Proof. induction xs as [|[i b] xs IH]; [reflexivity|]. cbn [fold_right cmd_checksum fst snd]. rewrite IH. reflexivity. Qed.
Lemma list_fold xs : fold_right (fun x k => andthen (cmd_tree fuel (fst x) (snd x)) k) done xs = exiso_list fuel xs.
Proof. induction xs as [|[i b] xs IH]; [reflexivity|]. cbn [fold_right exiso_list fst snd]. rewrite IH. reflexivity. Qed.
End Any.

(** ** From end to end *)
Lemma checksum_run H m fuel dup cwd pk w xs : Forall (fun x => is_file w cwd (fst x) (snd x)) xs ->
  main H m fuel dup cwd pk (Core (inl (Checksum (map fst xs)))) w = finish_with false ((w, fst (cmd_checksum H fuel xs)), map_err URead (snd (cmd_checksum H fuel xs))).
Proof.
  intros HF. cbn [main run_command]. pose proof (files_run cwd w (fun i => checksum_single H fuel i) xs HF) as K. cbv zeta in K. rewrite checksum_fold in K.
  f_equal. exact K.
Qed.
Lemma list_run H m fuel dup cwd pk w d del q qa xs : Forall (fun x => is_file w cwd (fst x) (snd x)) xs ->
  main H m fuel dup cwd pk (Exiso (mkEx d del q qa (ModeL (map fst xs)))) w = finish_with (q || qa) ((w, fst (exiso_list fuel xs)), map_err URead (snd (exiso_list fuel xs))).
Proof.
  intros HF. cbn [main]. unfold run_exiso_program, run_exiso_command. cbn [x_mode x_quiet_error x_quiet_all]. pose proof (files_run cwd w (fun i => cmd_tree fuel i) xs HF) as K. cbv zeta in K. rewrite list_fold in K.
  f_equal. exact K.
Qed.
Lemma returns_map {A B} (f : nat -> A) (g : A -> B) a : returns f a -> returns (fun k => g (f k)) (g a).
Proof. intros (n & Hn). exists n. intros k Hk. rewrite (Hn k Hk). reflexivity. Qed.

Lemma c133_checksum_lemma H m dup cwd pk w images ts : Forall (fun x => is_file w cwd (fst x) (snd x)) images ->
  Forall2 (fun x t => is_image (snd x) t /\ plain t) images ts ->
  exists ss, Forall2 fingerprint ts ss
    /\ returns (fun fuel => main H m fuel dup cwd pk (Core (inl (Checksum (map fst images)))) w)
         (mkProcess w (map (fun x => hex_text (H (stream (snd x))) ++ [9] ++ fst (fst x)) (combine images ss)) None (Some 0)).
Proof.
  intros HF HI. destruct (c70_lemma H images ts HI) as (ss & S1 & (n & R)). exists ss. split; [exact S1|]. exists n. intros k Hk. rewrite checksum_run by exact HF. rewrite (R k Hk). reflexivity.
Qed.
Lemma c133_list_lemma H m dup cwd pk w d del q qa (js : list (str * list byte * ftree)) : Forall (fun j => is_file w cwd (fst (fst j)) (snd (fst j)) /\ is_image (snd (fst j)) (snd j)) js ->
  exists outs, Forall2 (fun (j : str * list byte * ftree) lines => exists body, Permutation body (map row_line (rows [] (snd j)))
      /\ lines = body ++ [decimal (count_files (snd j)) ++ text " files, " ++ decimal (count_bytes (snd j)) ++ text " bytes in " ++ fst (fst j)]) js outs
    /\ returns (fun fuel => main H m fuel dup cwd pk (Exiso (mkEx d del q qa (ModeL (map (fun j => fst (fst j)) js)))) w) (mkProcess w (concat outs) None (Some 0)).
Proof.
  intros HF. destruct (c105_lemma js) as (outs & O & (n & R)); [eapply Forall_impl; [|exact HF]; intros j (_ & X); exact X|]. exists outs. split; [exact O|]. exists n. intros k Hk.
  rewrite <- (map_map fst fst). rewrite list_run; [rewrite (R k Hk); reflexivity|]. apply Forall_map. eapply Forall_impl; [|exact HF]. intros j (X & _). exact X.
Qed.
(** The first image that is bad ends it. *)
Lemma checksum_app H fuel a b : cmd_checksum H fuel (a ++ b) = andthen (cmd_checksum H fuel a) (cmd_checksum H fuel b).
Proof.
  induction a as [|[i x] a IH]; cbn [app cmd_checksum]; [unfold andthen, done; cbn [fst snd app]; destruct (cmd_checksum H fuel b); reflexivity|]. rewrite IH. unfold andthen.
  destruct (checksum_single H fuel i x) as [l [[]|e|p|]]; cbn [fst snd]; try reflexivity. destruct (cmd_checksum H fuel a) as [l' [[]|e|p|]]; cbn [fst snd]; rewrite ?app_assoc; reflexivity.
Qed.
Lemma c133_stops_lemma H m dup cwd pk w images ts name file rest : Forall (fun x => is_file w cwd (fst x) (snd x)) (images ++ (name, file) :: rest) ->
  Forall2 (fun x t => is_image (snd x) t /\ plain t) images ts -> (exists e, (let* d := open_image file in read_volume d) = Err e) ->
  exists ss e, Forall2 fingerprint ts ss
    /\ returns (fun fuel => main H m fuel dup cwd pk (Core (inl (Checksum (map fst (images ++ (name, file) :: rest))))) w)
         (mkProcess w (map (fun x => hex_text (H (stream (snd x))) ++ [9] ++ fst (fst x)) (combine images ss)) (Some e) (Some 1)).
Proof.
  intros HF HI (e & He). destruct (c70_lemma H images ts HI) as (ss & S1 & (n & R)). exists ss, (URead e). split; [exact S1|]. exists n. intros k Hk. rewrite checksum_run by exact HF.
  rewrite checksum_app, (R k Hk). cbn [cmd_checksum]. unfold checksum_single, try. destruct (open_image file) as [d|e'|p|]; cbn [bind] in He; try discriminate; rewrite ?He; try (injection He as ->); unfold andthen; cbn [fst snd]. all: rewrite app_nil_r; reflexivity.
Qed.

Lemma c133_unpack_lemma H m dup cwd pk s dest w ip file t : canonicalize (w_fs w) cwd s = Ok ip -> w_fs w ip = Some (HFile file) -> is_image file t -> unix_tree t -> ready_for cwd dest t w ->
  exists w', returns (fun fuel => main H m fuel dup cwd pk (Core (inl (Unpack s (Some dest)))) w) (mkProcess w' [] None (Some 0))
    /\ restored (place cwd dest) t (w_fs w) (w_fs w') /\ w_fs w' ip = Some (HFile file).
Proof.
  intros Hc Hi HI HU HW. destruct (c116_packed_lemma dup cwd s dest w ip file t Hc Hi HI HU HW) as (w' & R & W). exists w'. split; [|exact W].
  apply (returns_map _ (fun x : world * res uerr unit => finish_with false (let (w', r) := x in ((w', []), r)))) in R. exact R.
Qed.

Lemma c133_pack_unpack_lemma H m dup ls cwd src i dest w p t : Forall unix_name cwd -> canonicalize (w_fs w) cwd src = Ok p -> hosts (w_fs w) ls p t -> source t -> representable m t -> unix_tree t ->
  ready_for_file cwd i w -> ready_for cwd dest t w -> apart p (place cwd i) -> apart p (place cwd dest) -> apart (place cwd i) (place cwd dest) ->
  exists w1 w2, returns (fun fuel => main H m fuel dup cwd (std_packer ls fuel m) (Core (inl (Pack src (Some i)))) w) (mkProcess w1 [] None (Some 0))
   /\ returns (fun fuel => main H m fuel dup cwd (std_packer ls fuel m) (Core (inl (Unpack i (Some dest)))) w1) (mkProcess w2 [] None (Some 0))
   /\ (forall q, w_fs w2 (place cwd dest ++ q) = w_fs w (p ++ q)) /\ untouched p (w_fs w) (w_fs w2).
Proof.
  intros Hcwd Hc HH HS HRep HU HW HD A B C. destruct A as (A1 & A2). destruct B as (B1 & B2).
  destruct (c77_lemma m ls cwd src (Some i) i w p t Hcwd Hc HH HS (or_introl eq_refl) HW A1) as (w1 & o & img & R1 & L1 & F1 & F2 & [(_ & -> & HP)|(HN & _)]); [|destruct (HN HRep)].
  pose proof (still_ready cwd i dest t w w1 HW HD L1 F2 C) as HD1. pose proof (ready_canonical cwd i w (w_fs w1) img HW F2 F1) as Hc1.
  destruct (c116_packed_lemma dup cwd i dest w1 (place cwd i) img t Hc1 F1 (packed_is_image m t img HS HP) HU HD1) as (w2 & (n2 & R2) & (G1 & G2 & G3 & G4) & _).
  exists w1, w2. ssplit.
  - apply (returns_map _ (fun x : world * res herr unit => finish_with false (let (w', r) := x in ((w', []), map_err UHost r)))) in R1. destruct R1 as (n & R1). exists n. intros k Hk. specialize (R1 k Hk). cbn [map_err finish_with] in R1. rewrite <- R1.
    cbn [main run_command]. unfold hosted, quietly, uhost. destruct (cmd_pack _ _ _ _ w) as [v r]. reflexivity.
  - exists n2. intros k Hk. cbn [main run_command]. unfold quietly. rewrite (R2 k Hk). reflexivity.
  - intros q. destruct HH as (H1 & H2 & _). destruct (w_fs w (p ++ q)) as [x|] eqn:E.
    + destruct (H2 _ _ E) as (t' & Hat). destruct (G1 _ _ Hat) as (y & -> & ->). rewrite (H1 _ _ Hat) in E. exact E.
    + destruct (w_fs w2 (place cwd dest ++ q)) as [y|] eqn:Ey; [|reflexivity]. destruct (G2 _ _ Ey) as (t' & Hat). rewrite (H1 _ _ Hat) in E. discriminate.
  - intros q Hq. rewrite G4.
    + apply F2. intros ->. apply A1, Hq.
    + intros Hb. apply below_leads in Hb. destruct (leads_two _ _ _ Hq Hb); auto.
    + intros Hl. apply B1. eapply leads_trans; eauto.
Qed.

Lemma c132_core_lemma H m fuel dup cwd pk c w w' out r : run_command H m fuel dup cwd pk c w = ((w', out), r) ->
  let p := main H m fuel dup cwd pk (Core (inl c)) w in
  p_world p = w' /\ p_out p = out /\ (exits_ok p <-> r = Ok tt) /\ (exits_failed p <-> exists e, r = Err e)
  /\ (p_status p = Some 101 <-> exists k, r = Panic k) /\ (p_status p = None <-> r = OutOfFuel) /\ (forall e, p_error p = Some e <-> r = Err e).
Proof.
  intros E. cbn [main]. rewrite E. pose proof (finish_parts false w' out r) as K. cbv zeta in *. destruct K as (A & B & C & D & F & G & J). ssplit; auto. intros e. rewrite J. intuition.
Qed.
Lemma c132_exiso_lemma H m fuel dup cwd pk c w w' out r : run_exiso_command fuel cwd pk c w = ((w', out), r) ->
  let p := main H m fuel dup cwd pk (Exiso c) w in
  p_world p = w' /\ p_out p = out /\ (exits_ok p <-> r = Ok tt) /\ (exits_failed p <-> exists e, r = Err e)
  /\ (p_status p = Some 101 <-> exists k, r = Panic k) /\ (p_status p = None <-> r = OutOfFuel)
  /\ (forall e, p_error p = Some e <-> (x_quiet_error c = false /\ x_quiet_all c = false) /\ r = Err e).
Proof.
  intros E. cbn [main]. unfold run_exiso_program. rewrite E. pose proof (finish_parts (x_quiet_error c || x_quiet_all c) w' out r) as K. cbv zeta in *. destruct K as (A & B & C & D & F & G & J). ssplit; auto.
  intros e. rewrite J, orb_false_iff. reflexivity.
Qed.
Lemma c132_same_lemma H m fuel dup cwd pk c w : main H m fuel dup cwd pk (Core (inr c)) w = main H m fuel dup cwd pk (Exiso c) w.
Proof. reflexivity. Qed.
Lemma c132_mode_lemma H m fuel dup cwd pk d del q qa xs w :
  main H m fuel dup cwd pk (Exiso (mkEx d del q qa (ModeNone xs))) w = main H m fuel dup cwd pk (Exiso (mkEx d del q qa (ModeX xs))) w.
Proof. reflexivity. Qed.
