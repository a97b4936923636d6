(** Proofs about rewrite templates (C42, C60). *)
From Verif Require Import M_Base M_Util M_Layout M_Read M_Img M_Trie M_Remap S_Img S_Trie S_Remap P_Base.
From Coq Require Import Init.Byte.
From Coq Require DecimalN DecimalFacts.
Local Open Scope N_scope.

(** ** Parsing (C42) *)
Definition wstep (n c : N) : N := if (48 <=? c) && (c <=? 57) then n * 10 + (c - 48) else n.
Definition wfrom (x : N) (s : str) : N := fold_left wstep s x.

Lemma wfrom_mono x s : x <= wfrom x s.
Proof.
  revert x. induction s as [|c s IH]; intros x; [cbn; lia|]. cbn [wfrom fold_left]. fold (wfrom (wstep x c) s).
  specialize (IH (wstep x c)). unfold wstep in *. destruct (_ && _); lia.
Qed.
Lemma digit_dec c : is_digit c -> (48 <=? c) && (c <=? 57) = true.
Proof. unfold is_digit. intros H. apply andb_true_iff. rewrite !N.leb_le. lia. Qed.
Lemma digit_spec c : (48 <=? c) && (c <=? 57) = true -> is_digit c.
Proof. intros H. apply andb_true_iff in H. rewrite !N.leb_le in H. exact H. Qed.

Lemma usize_ok {E} m x : x < usize_modulus -> @usize E m x = Ok x.
Proof. intros H. unfold usize. destruct (N.ltb_spec x usize_modulus); [reflexivity|lia]. Qed.

Lemma inside m whole body : Forall (fun c => is_digit c \/ c = 123) body -> forall s idx x out, wfrom x body < usize_modulus ->
  exists idx', find_indices_loop m whole (body ++ 125 :: s) idx x true out = find_indices_loop m whole s idx' 0 false (out ++ [wfrom x body]).
Proof.
  intros HB. induction HB as [|c body Hc HB IH]; intros s idx x out Hx.
  - cbn. eexists. reflexivity.
  - change ((c :: body) ++ 125 :: s) with (c :: (body ++ 125 :: s)). cbn [find_indices_loop].
    cbn [wfrom fold_left] in Hx |- *. fold (wfrom (wstep x c) body) in *. pose proof (wfrom_mono (wstep x c) body) as Hm.
    unfold LBRACE, RBRACE. destruct Hc as [Hc|Hc].
    + assert (c <> 123 /\ c <> 125) as (H1 & H2) by (unfold is_digit in Hc; lia).
      destruct (N.eqb_spec c 123); [contradiction|]. destruct (N.eqb_spec c 125); [contradiction|]. cbn [negb].
      unfold to_digit. pose proof (digit_dec c Hc) as Hd. unfold wstep in *. rewrite Hd in *.
      rewrite usize_ok by lia. cbn [bind]. rewrite usize_ok by lia. cbn [bind]. apply IH. exact Hx.
    + subst c. cbn [N.eqb Pos.eqb]. change (wstep x 123) with x in *. apply IH. exact Hx.
Qed.

Lemma template_found m whole s l : template s l -> Forall (fun n => n < usize_modulus) l -> forall idx out,
  find_indices_loop m whole s idx 0 false out = Ok (out ++ l).
Proof.
  intros HT. induction HT as [|c s l Hc HT IH|body s l HB HT IH]; intros HF idx out.
  - cbn. rewrite app_nil_r. reflexivity.
  - cbn [find_indices_loop]. unfold LBRACE. destruct (N.eqb_spec c 123); [contradiction|]. cbn [negb]. apply IH. exact HF.
  - inversion HF; subst. cbn [find_indices_loop LBRACE N.eqb Pos.eqb].
    change (123 =? LBRACE) with true. cbn iota. destruct (inside m whole body HB s (idx + 1) 0 out) as (idx' & E); [exact H1|].
    rewrite E, IH by auto. rewrite <- app_assoc. reflexivity.
Qed.

(** What the loop establishes, outside and inside of braces. *)
Definition big_number (s : str) (x0 : N) (inside : bool) : Prop :=
  exists pre body post, s = pre ++ body ++ post /\ Forall (fun c => is_digit c \/ c = 123) body
    /\ (pre = [] /\ inside = true /\ usize_modulus <= wfrom x0 body
        \/ exists pre', pre = pre' ++ [123] /\ usize_modulus <= wfrom 0 body).

Definition outcome (m : build) (whole s : str) (idx X : N) (inside : bool) (out : list N) (r : res rmerr (list N)) : Prop :=
  match r with
  | Ok l' => if inside then
               exists body s' l, s = body ++ 125 :: s' /\ Forall (fun c => is_digit c \/ c = 123) body /\ template s' l
                 /\ l' = out ++ map (fun n => n mod usize_modulus) (wfrom X body :: l)
                 /\ (m = Debug -> Forall (fun n => n < usize_modulus) (wfrom X body :: l))
             else exists l, template s l /\ l' = out ++ map (fun n => n mod usize_modulus) l
                 /\ (m = Debug -> Forall (fun n => n < usize_modulus) l)
  | Err (InvalidRewriteSubstitution i w k) =>
      w = whole
      /\ (if inside then forall body s' l, s = body ++ 125 :: s' -> Forall (fun c => is_digit c \/ c = 123) body -> ~ template s' l
          else forall l, ~ template s l)
      /\ match k with
         | NonDigitCharacter => exists pre c post, s = pre ++ c :: post /\ i = idx + len pre /\ ~ is_digit c /\ c <> 123 /\ c <> 125
         | UnclosedBrace => i = utf8_len whole - 1
         end
  | Panic p => p = POverflow /\ m = Debug /\ big_number s X inside
  | _ => False
  end.

Lemma mod_step X c : is_digit c ->
  ((X mod usize_modulus * 10) mod usize_modulus + (c - 48)) mod usize_modulus = wstep X c mod usize_modulus.
Proof.
  intros H. unfold wstep. rewrite digit_dec by auto.
  rewrite N.mul_mod_idemp_l by discriminate. rewrite N.add_mod_idemp_l by discriminate. reflexivity.
Qed.

Lemma no_hole_char c body s' (x : Prop) s : c <> 123 -> c <> 125 -> ~ is_digit c -> c :: s = body ++ 125 :: s' ->
  Forall (fun c => is_digit c \/ c = 123) body -> x.
Proof.
  intros H1 H2 H3 E HB. destruct body as [|b body]; cbn in E; injection E as E1 E2.
  - congruence.
  - subst b. inversion HB; subst. exfalso. tauto.
Qed.

Lemma usize_mod m x : usize (E:=rmerr) m x = Panic POverflow /\ m = Debug /\ usize_modulus <= x
  \/ usize (E:=rmerr) m x = Ok (x mod usize_modulus) /\ (m = Debug -> x < usize_modulus).
Proof.
  unfold usize. destruct (N.ltb_spec x usize_modulus).
  - right. rewrite N.mod_small by auto. auto.
  - destruct m; [left|right]; ssplit; auto. discriminate.
Qed.

Lemma outcome_shift_out m whole c s idx out r : c <> 123 ->
  outcome m whole s (idx + 1) 0 false out r -> outcome m whole (c :: s) idx 0 false out r.
Proof.
  intros Hc. destruct r as [l'|[|i w k|]|p|]; cbn [outcome]; auto.
  - intros (l & H1 & H2). exists l. split; [constructor; auto|exact H2].
  - intros (-> & H2 & H3). split; [reflexivity|]. split.
    + intros l HT. inversion HT; subst; [eapply H2; eauto|congruence].
    + destruct k; [|exact H3]. destruct H3 as (pre & c' & post & -> & -> & H4). exists (c :: pre), c', post. ssplit; try tauto. unfold len. cbn [length]. lia.
  - intros (-> & -> & pre & body & post & -> & HB & H). split; [reflexivity|]. split; [reflexivity|].
    exists (c :: pre), body, post. split; [reflexivity|]. split; [exact HB|]. right.
    destruct H as [(_ & HH & _)|(pre' & -> & H)]; [discriminate|]. exists (c :: pre'). auto.
Qed.

Lemma loop_outcome m whole s : forall idx out,
  outcome m whole s idx 0 false out (find_indices_loop m whole s idx 0 false out)
  /\ forall X, (m = Debug -> X < usize_modulus) -> outcome m whole s idx X true out (find_indices_loop m whole s idx (X mod usize_modulus) true out).
Proof.
  induction s as [|c s IH]; intros idx out.
  - split; cbn.
    + exists []. ssplit; auto using tp_nil. rewrite app_nil_r. reflexivity.
    + intros X HX. ssplit; auto. intros [|b body] s' l E; discriminate.
  - split.
    + cbn [find_indices_loop]. unfold LBRACE. destruct (N.eqb_spec c 123) as [->|Hc].
      * destruct (IH (idx + 1) out) as (_ & IH2). specialize (IH2 0 ltac:(intros; reflexivity)). change (0 mod usize_modulus) with 0 in IH2.
        destruct (find_indices_loop m whole s (idx + 1) 0 true out) as [l'|[|i w k|]|p|]; cbn [outcome] in *; auto.
        -- destruct IH2 as (body & s' & l & -> & HB & HT & -> & HD). exists (wfrom 0 body :: l). split; [exact (tp_hole body s' l HB HT)|]. split; [reflexivity|exact HD].
        -- destruct IH2 as (-> & H2 & H3). split; [reflexivity|]. split.
           ++ intros l HT. inversion HT; subst; [congruence|]. eapply H2; [reflexivity| |]; eassumption.
           ++ destruct k; [|exact H3]. destruct H3 as (pre & c' & post & -> & -> & H4). exists (123 :: pre), c', post. ssplit; try tauto. unfold len. cbn [length]. lia.
        -- destruct IH2 as (-> & -> & pre & body & post & -> & HB & H). split; [reflexivity|]. split; [reflexivity|].
           exists (123 :: pre), body, post. split; [reflexivity|]. split; [exact HB|]. right.
           destruct H as [(-> & _ & H)|(pre' & -> & H)]; [exists []; auto|exists (123 :: pre'); auto].
      * cbn [negb]. apply outcome_shift_out; auto. apply IH.
    + intros X HX. cbn [find_indices_loop]. unfold LBRACE, RBRACE. destruct (N.eqb_spec c 123) as [->|Hc].
      * destruct (IH (idx + 1) out) as (_ & IH2). specialize (IH2 X HX).
        destruct (find_indices_loop m whole s (idx + 1) (X mod usize_modulus) true out) as [l'|[|i w k|]|p|]; cbn [outcome] in *; auto.
        -- destruct IH2 as (body & s' & l & -> & HB & HT & -> & HD). exists (123 :: body), s', l. ssplit; auto.
        -- destruct IH2 as (-> & H2 & H3). split; [reflexivity|]. split.
           ++ intros [|b body] s' l E HB; [discriminate|]. injection E as <- ->. inversion HB; subst. eapply H2; [reflexivity|assumption].
           ++ destruct k; [|exact H3]. destruct H3 as (pre & c' & post & -> & -> & H4). exists (123 :: pre), c', post. ssplit; try tauto. unfold len. cbn [length]. lia.
        -- destruct IH2 as (-> & -> & pre & body & post & -> & HB & H). split; [reflexivity|]. split; [reflexivity|].
           destruct H as [(-> & _ & H)|(pre' & -> & H)].
           ++ exists [], (123 :: body), post. ssplit; auto.
           ++ exists (123 :: pre' ++ [123]), body, post. ssplit; auto. right. exists (123 :: pre'). auto.
      * cbn [negb]. destruct (N.eqb_spec c 125) as [->|Hc'].
        -- destruct (IH (idx + 1) (out ++ [X mod usize_modulus])) as (IH1 & _).
           destruct (find_indices_loop m whole s (idx + 1) 0 false (out ++ [X mod usize_modulus])) as [l'|[|i w k|]|p|]; cbn [outcome] in *; auto.
           ++ destruct IH1 as (l & HT & -> & HD). exists [], s, l. split; [reflexivity|]. split; [constructor|]. split; [exact HT|]. split; [rewrite <- app_assoc; reflexivity|]. intros Hm. constructor; [exact (HX Hm)|exact (HD Hm)].
           ++ destruct IH1 as (-> & H2 & H3). split; [reflexivity|]. split.
              ** intros [|b body] s' l E HB; [injection E as ->; apply H2|]. injection E as <- ->. inversion HB as [|? ? Hb]; subst. destruct Hb as [Hb|Hb]; [unfold is_digit in Hb; lia|discriminate].
              ** destruct k; [|exact H3]. destruct H3 as (pre & c' & post & -> & -> & H4). exists (125 :: pre), c', post. ssplit; try tauto. unfold len. cbn [length]. lia.
           ++ destruct IH1 as (-> & -> & pre & body & post & -> & HB & H). split; [reflexivity|]. split; [reflexivity|].
              exists (125 :: pre), body, post. ssplit; auto. right.
              destruct H as [(_ & HH & _)|(pre' & -> & H)]; [discriminate|exists (125 :: pre'); auto].
        -- unfold to_digit. destruct ((48 <=? c) && (c <=? 57)) eqn:Ed.
           ++ apply digit_spec in Ed. 
              assert (Hover : forall y, m = Debug -> usize_modulus <= y -> y <= wstep X c -> big_number (c :: s) X true).
              { intros y _ Hy1 Hy2. exists [], [c], s. ssplit; auto. left. ssplit; auto. unfold wfrom. cbn [fold_left]. lia. }
              assert (HX10 : m = Debug -> X mod usize_modulus = X) by (intros Hm; apply N.mod_small; auto).
              assert (Ew : wstep X c = X * 10 + (c - 48)) by (unfold wstep; rewrite digit_dec by auto; reflexivity).
              destruct (usize_mod m (X mod usize_modulus * 10)) as [(-> & Hm & Ho)|(-> & Ho)].
              { cbn [bind outcome]. ssplit; auto. rewrite HX10 in Ho by auto. eapply Hover; [exact Hm|exact Ho|lia]. }
              cbn [bind]. destruct (usize_mod m ((X mod usize_modulus * 10) mod usize_modulus + (c - 48))) as [(-> & Hm & Ho2)|(-> & Ho2)].
              { cbn [bind outcome]. ssplit; auto. rewrite HX10 in * by auto. rewrite N.mod_small in Ho2 by auto. eapply Hover; [exact Hm|exact Ho2|lia]. }
              cbn [bind]. rewrite mod_step by auto. destruct (IH (idx + 1) out) as (_ & IH2). specialize (IH2 (wstep X c)).
              assert (Hs : m = Debug -> wstep X c < usize_modulus).
              { intros Hm. specialize (Ho Hm). specialize (Ho2 Hm). rewrite HX10 in * by auto. rewrite N.mod_small in Ho2 by auto. lia. }
              specialize (IH2 Hs).
              destruct (find_indices_loop m whole s (idx + 1) (wstep X c mod usize_modulus) true out) as [l'|[|i w k|]|p|]; cbn [outcome] in *; auto.
              ** destruct IH2 as (body & s' & l & -> & HB & HT & -> & HD). exists (c :: body), s', l. ssplit; auto.
              ** destruct IH2 as (-> & H2 & H3). split; [reflexivity|]. split.
                 --- intros [|b body] s' l E HB; [injection E as E _; congruence|]. injection E as <- ->. inversion HB; subst. eapply H2; [reflexivity|assumption].
                 --- destruct k; [|exact H3]. destruct H3 as (pre & c' & post & -> & -> & H4). exists (c :: pre), c', post. ssplit; try tauto. unfold len. cbn [length]. lia.
              ** destruct IH2 as (-> & -> & pre & body & post & -> & HB & H). split; [reflexivity|]. split; [reflexivity|].
                 destruct H as [(-> & _ & H)|(pre' & -> & H)].
                 --- exists [], (c :: body), post. ssplit; auto.
                 --- exists (c :: pre' ++ [123]), body, post. ssplit; auto. right. exists (c :: pre'). auto.
           ++ cbn [outcome]. assert (Hnd : ~ is_digit c) by (intros Hd; apply digit_dec in Hd; congruence). ssplit; auto.
              ** intros body s' l E HB HT. exact (no_hole_char c body s' False s Hc Hc' Hnd E HB).
              ** exists [], c, s. ssplit; auto. unfold len. cbn. lia.
Qed.

Lemma c42_lemma m s :
  (forall l, template s l -> Forall (fun n => n < usize_modulus) l -> find_match_indices m s = Ok l)
  /\ match find_match_indices m s with
     | Ok l' => exists l, template s l /\ l' = map (fun n => n mod usize_modulus) l /\ (m = Debug -> l' = l)
     | Err (InvalidRewriteSubstitution i w k) =>
         w = s /\ (forall l, ~ template s l)
         /\ match k with
            | NonDigitCharacter => exists pre c post, s = pre ++ c :: post /\ i = len pre /\ ~ is_digit c /\ c <> 123 /\ c <> 125
            | UnclosedBrace => i = utf8_len s - 1
            end
     | Panic p => p = POverflow /\ m = Debug
         /\ exists pre body post, s = pre ++ 123 :: body ++ post /\ Forall (fun c => is_digit c \/ c = 123) body /\ usize_modulus <= written body
     | _ => False
     end.
Proof.
  split.
  - intros l HT HF. unfold find_match_indices. rewrite (template_found m s s l HT HF). reflexivity.
  - unfold find_match_indices. destruct (loop_outcome m s s 0 []) as (H & _).
    destruct (find_indices_loop m s s 0 0 false []) as [l'|[|i w k|]|p|]; cbn [outcome] in H; auto.
    + destruct H as (l & HT & E & HD). exists l. ssplit; auto. intros Hm. rewrite E. cbn [app]. specialize (HD Hm). clear - HD.
      induction HD; cbn [map]; [reflexivity|]. rewrite N.mod_small, IHHD by auto. reflexivity.
    + destruct H as (Hp & Hm & pre & body & post & E & HB & [(_ & HH & _)|(pre' & Epre & H)]); [discriminate|]. ssplit; auto.
      exists pre', body, post. subst pre. rewrite <- app_assoc in E. auto.
Qed.

(** ** Substitution (C60) *)
Lemma acc_written d p : wfrom (Npos p) (uint_str d) = Npos (Pos.of_uint_acc d p).
Proof.
  revert p. induction d; intros p; [reflexivity|..]; cbn [uint_str Pos.of_uint_acc]; unfold wfrom; cbn [fold_left];
    (match goal with |- fold_left wstep _ (wstep _ ?c) = Npos (Pos.of_uint_acc _ ?q) =>
       replace (wstep (Npos p) c) with (Npos q) by (change (wstep (Npos p) c) with (Npos p * 10 + (c - 48)); lia) end); apply IHd.
Qed.
Lemma written_uint d : wfrom 0 (uint_str d) = N.of_uint d.
Proof. induction d; [reflexivity|exact IHd|..]; exact (acc_written d _). Qed.
Lemma written_decimal n : written (decimal n) = n.
Proof. change (wfrom 0 (uint_str (N.to_uint n)) = n). rewrite written_uint. apply DecimalN.Unsigned.of_to. Qed.
Lemma decimal_digits n : Forall is_digit (decimal n).
Proof. unfold decimal. induction (N.to_uint n); cbn [uint_str]; constructor; auto; unfold is_digit; lia. Qed.
Lemma decimal_inj a b : decimal a = decimal b -> a = b.
Proof. intros H. rewrite <- (written_decimal a), <- (written_decimal b), H. reflexivity. Qed.

Definition plain (i : item) : Prop := match i with Lit c => c <> 123 | Hole n => n < usize_modulus end.
Fixpoint holes (l : list item) : list N :=
  match l with [] => [] | Lit _ :: l => holes l | Hole n :: l => n :: holes l end.

Lemma show_template l : Forall plain l -> template (show l) (holes l).
Proof.
  intros H. induction H as [|[c|n] l Hx H IH]; [constructor|..]; cbn [show flat_map show_item holes]; fold (show l).
  - constructor; auto.
  - unfold placeholder. change ((LBRACE :: decimal n ++ [RBRACE]) ++ show l) with (123 :: (decimal n ++ [125]) ++ show l).
    rewrite <- app_assoc. change ([125] ++ show l) with (125 :: show l). rewrite <- (written_decimal n) at 2. apply tp_hole; [|exact IH].
    eapply Forall_impl; [|apply decimal_digits]. intros a Ha. left. exact Ha.
Qed.
Lemma show_found m l : Forall plain l -> find_match_indices m (show l) = Ok (holes l).
Proof.
  intros H. apply c42_lemma; [apply show_template; exact H|].
  induction H as [|[c|n] l Hx H IH]; cbn [holes]; auto.
Qed.

Lemma skip_all pat to u s : replace_loop (length u) pat to (u ++ s) = replace_loop 0 pat to s.
Proof. induction u as [|c u IH]; [reflexivity|]. cbn [length app replace_loop]. exact IH. Qed.

Lemma no_brace pat to u s : Forall (fun c => c <> 123) u ->
  replace_loop 0 (123 :: pat) to (u ++ s) = u ++ replace_loop 0 (123 :: pat) to s.
Proof.
  intros H. induction H as [|c u Hc H IH]; [reflexivity|]. cbn [app replace_loop starts_with].
  destruct (N.eqb_spec 123 c); [congruence|]. cbn [andb]. rewrite IH. reflexivity.
Qed.

Lemma starts_digits a b s : Forall is_digit a -> Forall is_digit b ->
  starts_with (a ++ [125]) (b ++ 125 :: s) = true <-> a = b.
Proof.
  intros Ha. revert b. induction Ha as [|x a Hx Ha IH]; intros b Hb.
  - destruct b as [|y b]; [cbn; tauto|]. inversion Hb; subst. cbn [app starts_with]. unfold is_digit in *.
    destruct (N.eqb_spec 125 y); [lia|]. cbn [andb]. split; discriminate.
  - destruct b as [|y b].
    + cbn [app starts_with]. unfold is_digit in *. destruct (N.eqb_spec x 125); [lia|]. cbn [andb]. split; discriminate.
    + inversion Hb; subst. cbn [app starts_with]. destruct (N.eqb_spec x y) as [->|Hn]; cbn [andb].
      * rewrite IH by auto. split; [intros ->; reflexivity|intros [= ->]; reflexivity].
      * split; [discriminate|intros [= ->]; congruence].
Qed.

Definition put (i : N) (to : str) (l : list item) : list item :=
  flat_map (fun x => match x with Lit c => [Lit c] | Hole n => if n =? i then map Lit to else [Hole n] end) l.

Lemma show_app a b : show (a ++ b) = show a ++ show b.
Proof. unfold show. rewrite !flat_map_concat_map, map_app, concat_app. reflexivity. Qed.
Lemma show_lits s : show (map Lit s) = s.
Proof. induction s; cbn; [reflexivity|]. f_equal. exact IHs. Qed.

Lemma replace_show i to l : Forall plain l -> replace (show l) (placeholder i) to = show (put i to l).
Proof.
  intros H. unfold replace. change (placeholder i) with (123 :: decimal i ++ [125]).
  induction H as [|[c|n] l Hx H IH]; [reflexivity|..]; cbn [show flat_map put show_item]; fold (show l); fold (put i to l).
  - change ([c] ++ show l) with ([c] ++ show l). rewrite no_brace by (constructor; [exact Hx|constructor]). rewrite IH. reflexivity.
  - rewrite flat_map_app. fold (show (put i to l)). change (placeholder n) with (123 :: decimal n ++ [125]).
    cbn [app replace_loop starts_with]. change (123 =? 123) with true. cbn [andb]. rewrite <- app_assoc. cbn [app].
    pose proof (starts_digits (decimal i) (decimal n) (show l) (decimal_digits i) (decimal_digits n)) as Hs.
    destruct (N.eqb_spec n i) as [->|Hn].
    + destruct (starts_with (decimal i ++ [125]) (decimal i ++ 125 :: show l)); [|exfalso; assert (false = true) by (apply Hs; reflexivity); discriminate].
      assert (El : (length (123%N :: decimal i ++ [125%N]) - 1 = length (decimal i ++ [125%N]))%nat) by (cbn [length]; lia). rewrite El.
      change (decimal i ++ 125 :: show l) with (decimal i ++ [125] ++ show l). rewrite app_assoc, skip_all.
      fold (show (map Lit to)). rewrite show_lits, IH. reflexivity.
    + destruct (starts_with (decimal i ++ [125]) (decimal n ++ 125 :: show l)) eqn:Es.
      { exfalso. apply Hn. symmetry. apply decimal_inj. apply Hs. reflexivity. }
      cbn [flat_map show_item app]. rewrite app_nil_r. f_equal. change (decimal n ++ 125 :: show l) with (decimal n ++ [125] ++ show l).
      rewrite app_assoc, no_brace; [rewrite IH; reflexivity|].
      apply Forall_app. split; [|constructor; [discriminate|constructor]].
      eapply Forall_impl; [|apply decimal_digits]. unfold is_digit. intros a Ha. lia.
Qed.

Definition cap (caps : N -> option str) (n : N) : str := match caps n with Some s => s | None => [] end.

Lemma put_plain i to l : Forall plain l -> Forall (fun c => c <> 123) to -> Forall plain (put i to l).
Proof.
  intros H Ht. induction H as [|[c|n] l Hx H IH]; [constructor|..]; cbn [put flat_map]; fold (put i to l).
  - constructor; auto.
  - apply Forall_app. split; [|exact IH]. destruct (n =? i); [|constructor; [exact Hx|constructor]].
    apply Forall_forall. intros x Hin. apply in_map_iff in Hin. destruct Hin as (c & <- & Hc). cbn. eapply Forall_forall in Ht; eauto.
Qed.
Lemma put_filled caps i l : filled caps (put i (cap caps i) l) = filled caps l.
Proof.
  unfold filled, put. induction l as [|[c|n] l IH]; [reflexivity|..]; cbn [flat_map]; rewrite flat_map_app, IH; [reflexivity|].
  f_equal. destruct (N.eqb_spec n i) as [->|]; [|cbn; rewrite app_nil_r; reflexivity]. unfold cap. destruct (caps i) as [s|]; [|reflexivity]. clear. induction s as [|c s IH]; cbn [map flat_map app]; [reflexivity|f_equal; exact IH].
Qed.
Lemma put_holes caps i l n : In n (holes (put i (cap caps i) l)) -> In n (holes l) /\ n <> i.
Proof.
  assert (Ha : forall a b, holes (a ++ b) = holes a ++ holes b).
  { induction a as [|[c|k] a IH]; intros b; cbn; rewrite ?IH; reflexivity. }
  assert (Hl : forall s, holes (map Lit s) = []) by (induction s; cbn; auto).
  induction l as [|[c|k] l IH]; [intros []|..]; cbn [put flat_map holes app]; fold (put i (cap caps i) l); [exact IH|].
  rewrite Ha. intros H. apply in_app_iff in H. destruct H as [H|H]; [|destruct (IH H); split; auto; right; auto].
  destruct (N.eqb_spec k i) as [->|Hk]; [rewrite Hl in H; destruct H|]. cbn in H. destruct H as [<-|[]]. split; [left; reflexivity|exact Hk].
Qed.

Lemma no_holes caps l : holes l = [] -> show l = filled caps l.
Proof. induction l as [|[c|n] l IH]; cbn; intros H; [reflexivity|f_equal; auto|discriminate]. Qed.

Lemma substitute_show caps idxs : forall l, Forall plain l -> (forall n, In n idxs -> Forall (fun c => c <> 123) (cap caps n)) ->
  (forall n, In n (holes l) -> In n idxs) -> substitute caps (show l) idxs = filled caps l.
Proof.
  unfold substitute. induction idxs as [|i idxs IH]; intros l Hl Hc Hh; cbn [fold_left].
  - apply no_holes. destruct (holes l) as [|n h]; [reflexivity|]. destruct (Hh n (or_introl eq_refl)).
  - fold (cap caps i). rewrite replace_show by auto. rewrite IH.
    + apply put_filled.
    + apply put_plain; auto. apply Hc. left; reflexivity.
    + intros n Hn. apply Hc. right; exact Hn.
    + intros n Hn. apply put_holes in Hn. destruct Hn as (Hn & Hne). destruct (Hh n Hn); [congruence|assumption].
Qed.

Lemma c60_lemma m caps l :
  Forall (fun i => match i with Lit c => c <> 123 | Hole n => n < usize_modulus /\ Forall (fun c => c <> 123) (filled caps [Hole n]) end) l ->
  exists idxs, find_match_indices m (show l) = Ok idxs /\ substitute caps (show l) idxs = filled caps l.
Proof.
  intros H. assert (Hp : Forall plain l) by (eapply Forall_impl; [|exact H]; intros [c|n]; cbn; tauto).
  exists (holes l). split; [apply show_found; exact Hp|]. apply substitute_show; auto.
  intros n Hn. clear Hp. induction H as [|[c|k] l Hx H IH]; cbn [holes] in Hn; [destruct Hn|auto|].
  destruct Hn as [->|Hn]; auto. destruct Hx as (_ & Hx). cbn in Hx. rewrite app_nil_r in Hx. exact Hx.
Qed.

(** ** Keeping a path (C61) *)
Lemma split_no_slash s : (forall c, In c s -> c <> 47) -> split_slash s = [s].
Proof.
  induction s as [|c s IH]; intros H; [reflexivity|]. cbn [split_slash]. unfold SLASH. destruct (N.eqb_spec c 47); [destruct (H c); [left; auto|auto]|].
  rewrite IH; [reflexivity|]. intros x Hx. apply H. right; exact Hx.
Qed.
Lemma split_app s r : (forall c, In c s -> c <> 47) -> split_slash (s ++ SLASH :: r) = s :: split_slash r.
Proof.
  induction s as [|c s IH]; intros H; cbn [app split_slash]; [reflexivity|]. unfold SLASH at 1. destruct (N.eqb_spec c 47); [destruct (H c); [left; auto|auto]|].
  rewrite IH; [reflexivity|]. intros x Hx. apply H. right; exact Hx.
Qed.
Lemma split_join p : p <> [] -> Forall (fun s => forall c, In c s -> c <> 47) p -> split_slash (join_slash p) = p.
Proof.
  intros Hn H. induction H as [|s p Hs H IH]; [congruence|]. destruct p as [|s' p]; [cbn; apply split_no_slash; exact Hs|].
  change (join_slash (s :: s' :: p)) with (s ++ SLASH :: join_slash (s' :: p)). rewrite split_app by auto. f_equal. apply IH. discriminate.
Qed.
Lemma trim_head x c s : c <> x -> trim_start_c x (c :: s) = c :: s.
Proof. intros H. cbn [trim_start_c]. destruct (N.eqb_spec c x); [contradiction|reflexivity]. Qed.
Lemma filter_all (p : path) : Forall (fun s => s <> []) p -> path_from_iter p = p.
Proof. intros H. unfold path_from_iter. induction H as [|s p Hs H IH]; [reflexivity|]. cbn [filter]. destruct s; [congruence|]. cbn [negb]. f_equal. exact IH. Qed.

Lemma join_head c s p : exists r, join_slash ((c :: s) :: p) = c :: r.
Proof. destruct p; cbn; eexists; reflexivity. Qed.

Lemma c61_lemma m caps (p : path) :
  p <> [] -> Forall (fun s => s <> [] /\ forall c, In c s -> c <> 47) p -> (forall s, hd [] p <> 46 :: s) ->
  caps 0 = Some (candidate p) -> rewrite_path m caps (placeholder 0) [] = Ok p.
Proof.
  intros Hn HF Hd Hc. destruct p as [|[|c s] p]; [congruence|inversion HF as [|? ? (H & _)]; congruence|].
  assert (Hc47 : c <> 47) by (inversion HF as [|? ? (_ & H)]; subst; apply H; left; reflexivity).
  assert (Hc46 : c <> 46) by (intros ->; exact (Hd s eq_refl)).
  destruct (join_head c s p) as (r & Er).
  assert (Ec : candidate ((c :: s) :: p) = c :: r).
  { unfold candidate, as_string. cbn [trim_start_c]. change (SLASH =? SLASH) with true. cbn iota. rewrite Er. apply trim_head. exact Hc47. }
  assert (Hc' : caps 0 = Some (c :: r)) by (rewrite <- Ec; exact Hc). unfold rewrite_path. change (find_match_indices m (placeholder 0)) with (Ok (E:=rmerr) [0]). cbn [bind].
  unfold substitute. cbn [fold_left]. rewrite Hc'.
  assert (Es : replace (placeholder 0) (placeholder 0) (c :: r) = c :: r) by (cbn; rewrite app_nil_r; reflexivity). rewrite Es.
  rewrite (trim_head DOT) by exact Hc46. rewrite (trim_head SLASH) by exact Hc47. rewrite <- Er.
  rewrite split_join; [|discriminate|]. 
  - rewrite filter_all; [reflexivity|]. eapply Forall_impl; [|exact HF]. intros a (H & _). exact H.
  - eapply Forall_impl; [|exact HF]. intros a (_ & H). exact H.
Qed.
