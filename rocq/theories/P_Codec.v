(** Proofs for S_Codec. *)
From Verif Require Import M_Base M_Util M_Layout M_Avl M_Dirtab P_Base P_Layout S_Avl S_Codec.
From Coq Require Import ZifyBool ZifyNat ZifyN Init.Byte.
Local Open Scope N_scope.

Lemma upper_ok c : to_ascii_uppercase c = upper c.
Proof.
  unfold to_ascii_uppercase, upper. cbn [combine find fst snd].
  repeat (match goal with |- context[N.eqb ?x ?y] => is_var y; destruct (N.eqb_spec x y) as [<-|?]; [vm_compute; reflexivity|] end).
  destruct (N.leb_spec 97 c), (N.leb_spec c 122); cbn [andb]; auto. lia.
Qed.

Lemma lex_lt_iff a b : lex_cmp N.compare a b = Lt <-> lex_lt a b.
Proof.
  revert b; induction a as [|x a IH]; intros [|y b]; cbn.
  - split; [discriminate|intros H; inversion H].
  - split; auto. constructor.
  - split; [discriminate|intros H; inversion H].
  - destruct (N.compare_spec x y) as [->|H|H].
    + rewrite IH. split; [apply lex_tail|]. intros H; inversion H; subst; auto. lia.
    + split; auto. intros _. constructor; auto.
    + split; [discriminate|]. intros H'; inversion H'; subst; lia.
Qed.

Lemma name_order a b :
  (cmp_ignore_case_utf8 a b = Lt <-> lex_lt (map upper a) (map upper b))
  /\ (cmp_ignore_case_utf8 a b = Eq <-> map upper a = map upper b)
  /\ (cmp_ignore_case_utf8 a b = Gt <-> lex_lt (map upper b) (map upper a)).
Proof.
  assert (Hm : forall s, map to_ascii_uppercase s = map upper s) by (intros s; apply map_ext, upper_ok).
  ssplit.
  - rewrite cmp_upper, !Hm. apply lex_lt_iff.
  - rewrite cmp_ic_eq, !Hm. tauto.
  - rewrite <- lex_lt_iff, <- !Hm, <- cmp_upper, (cmp_ic_opp a b). destruct (cmp_ignore_case_utf8 a b); cbn; split; congruence.
Qed.

Lemma lex_app_cmp a b x y :
  length a = length b -> lex_cmp N.compare (a ++ x) (b ++ y) =
    match lex_cmp N.compare a b with Eq => lex_cmp N.compare x y | c => c end.
Proof.
  revert b; induction a as [|u a IH]; intros [|v b] H; cbn in *; try discriminate; auto.
  injection H as H. rewrite IH by auto. destruct (N.compare u v); auto.
Qed.

Lemma utf8_cmp c d x y : scalar c -> scalar d ->
  lex_cmp N.compare (utf8 c ++ x) (utf8 d ++ y) =
    match N.compare c d with Eq => lex_cmp N.compare x y | r => r end.
Proof.
  unfold scalar. intros Hc Hd. unfold utf8.
  assert (E : forall z, z / 4096 = z / 64 / 64 /\ z / 262144 = z / 64 / 64 / 64).
  { intros z. rewrite !N.div_div by lia. auto. }
  destruct (E c) as [-> ->], (E d) as [-> ->]. clear E.
  destruct (N.ltb_spec c 0x80), (N.ltb_spec c 0x800), (N.ltb_spec c 0x10000); try lia;
  destruct (N.ltb_spec d 0x80), (N.ltb_spec d 0x800), (N.ltb_spec d 0x10000); try lia;
  cbn [app lex_cmp];
  repeat match goal with |- context[N.compare ?a ?b] => 
    lazymatch constr:((a, b)) with (c, d) => fail | _ => destruct (N.compare_spec a b) end end;
  destruct (N.compare_spec c d); auto; lia.
Qed.

Lemma utf8_order a b : Forall scalar a -> Forall scalar b ->
  lex_cmp N.compare (utf8_str a) (utf8_str b) = str_cmp a b.
Proof.
  intros Ha. revert b; induction Ha as [|c a Hc Ha IH]; intros b Hb; destruct Hb as [|d b Hd Hb]; auto.
  - unfold utf8_str, str_cmp. cbn. unfold utf8.
    destruct (d <? 0x80), (d <? 0x800), (d <? 0x10000); reflexivity.
  - unfold utf8_str, str_cmp. cbn. unfold utf8.
    destruct (c <? 0x80), (c <? 0x800), (c <? 0x10000); reflexivity.
  - unfold utf8_str, str_cmp. cbn [map concat lex_cmp]. rewrite utf8_cmp by auto. rewrite <- IH by auto. reflexivity.
Qed.

Lemma utf8_length s : utf8_len s = len (utf8_str s).
Proof.
  induction s as [|c s IH]; [reflexivity|]. rewrite utf8_len_cons, IH. unfold utf8_str. cbn [map concat].
  rewrite len_app. f_equal. unfold utf8_char_len, utf8. destruct (c <? 128), (c <? 2048), (c <? 65536); reflexivity.
Qed.

Lemma le_nth n x i : (i < n)%nat -> option_map b2n (nth_error (le n x) i) = Some (byte_of x (N.of_nat i)).
Proof.
  revert x i; induction n as [|n IH]; intros x i H; [lia|]. destruct i as [|i]; cbn [le nth_error option_map].
  - rewrite b2n_n2b, N.mod_mod by lia. unfold byte_of. cbn. rewrite N.div_1_r. reflexivity.
  - rewrite IH by lia. f_equal. unfold byte_of. rewrite Nnat.Nat2N.inj_succ, N.pow_succ_r'.
    rewrite N.div_div by (try lia; apply N.pow_nonzero; lia). reflexivity.
Qed.

Lemma field_app a b c off n x : off = length a -> b = le n x -> field (a ++ b ++ c) off n x.
Proof.
  intros -> -> i Hi. rewrite nth_error_app2 by lia. replace (length a + i - length a)%nat with i by lia.
  rewrite nth_error_app1 by (rewrite le_length; auto). apply le_nth; auto.
Qed.

Lemma bytes_at_app a b c off : off = length a -> bytes_at (a ++ b ++ c) off b.
Proof.
  intros -> i Hi. rewrite nth_error_app2 by lia. replace (length a + i - length a)%nat with i by lia.
  apply nth_error_app1; auto.
Qed.

Lemma volume_fields v : volume_wf v ->
  let b := volume_ser v in
  length b = 2048%nat
  /\ bytes_at b 0 (v_magic0 v)
  /\ field b 20 4 (r_sector (v_root v)) /\ field b 24 4 (r_size (v_root v))
  /\ field b 28 8 (v_filetime v)
  /\ bytes_at b 36 (v_unused v)
  /\ bytes_at b 2028 (v_magic1 v).
Proof.
  intros H b. pose proof (volume_ser_len v H) as HL. destruct H as (H1 & H2 & H3 & H4 & H5).
  unfold len in *. subst b. unfold volume_ser, region_ser in *.
  pose proof (le_length 4 (r_sector (v_root v))) as L1. pose proof (le_length 4 (r_size (v_root v))) as L2.
  pose proof (le_length 8 (v_filetime v)) as L3.
  set (p1 := v_magic0 v) in *. set (p2 := le 4 (r_sector (v_root v))) in *. set (p3 := le 4 (r_size (v_root v))) in *.
  set (p4 := le 8 (v_filetime v)) in *. set (p5 := v_unused v) in *. set (p6 := v_magic1 v) in *.
  ssplit.
  - apply Nnat.Nat2N.inj. rewrite HL. reflexivity.
  - apply (bytes_at_app [] p1). reflexivity.
  - replace (p1 ++ (p2 ++ p3) ++ p4 ++ p5 ++ p6) with (p1 ++ p2 ++ (p3 ++ p4 ++ p5 ++ p6)) by (rewrite <- !app_assoc; reflexivity).
    apply field_app; [lia|reflexivity].
  - replace (p1 ++ (p2 ++ p3) ++ p4 ++ p5 ++ p6) with ((p1 ++ p2) ++ p3 ++ (p4 ++ p5 ++ p6)) by (rewrite <- !app_assoc; reflexivity).
    apply field_app; [rewrite app_length; lia|reflexivity].
  - replace (p1 ++ (p2 ++ p3) ++ p4 ++ p5 ++ p6) with ((p1 ++ p2 ++ p3) ++ p4 ++ (p5 ++ p6)) by (rewrite <- !app_assoc; reflexivity).
    apply field_app; [rewrite !app_length; lia|reflexivity].
  - replace (p1 ++ (p2 ++ p3) ++ p4 ++ p5 ++ p6) with ((p1 ++ p2 ++ p3 ++ p4) ++ p5 ++ p6) by (rewrite <- !app_assoc; reflexivity).
    apply bytes_at_app; rewrite !app_length; lia.
  - replace (p1 ++ (p2 ++ p3) ++ p4 ++ p5 ++ p6) with ((p1 ++ p2 ++ p3 ++ p4 ++ p5) ++ p6 ++ []) by (rewrite <- !app_assoc, app_nil_r; reflexivity).
    apply bytes_at_app; rewrite !app_length; lia.
Qed.

Lemma dnode_fields d :
  let b := dnode_ser d in
  length b = 14%nat
  /\ field b 0 2 (d_left d) /\ field b 2 2 (d_right d)
  /\ field b 4 4 (r_sector (d_region (d_dirent d))) /\ field b 8 4 (r_size (d_region (d_dirent d)))
  /\ field b 12 1 (d_attrs (d_dirent d)) /\ field b 13 1 (d_namelen (d_dirent d)).
Proof.
  intros b. pose proof (dnode_ser_len d) as HL. unfold len in *. subst b. unfold dnode_ser, ddata_ser, region_ser in *.
  pose proof (le_length 2 (d_left d)) as L1. pose proof (le_length 2 (d_right d)) as L2.
  pose proof (le_length 4 (r_sector (d_region (d_dirent d)))) as L3. pose proof (le_length 4 (r_size (d_region (d_dirent d)))) as L4.
  pose proof (le_length 1 (d_attrs (d_dirent d))) as L5.
  set (p1 := le 2 (d_left d)) in *. set (p2 := le 2 (d_right d)) in *.
  set (p3 := le 4 (r_sector _)) in *. set (p4 := le 4 (r_size _)) in *.
  set (p5 := le 1 (d_attrs _)) in *. set (p6 := le 1 (d_namelen _)) in *.
  ssplit.
  - lia.
  - apply (field_app [] p1); reflexivity.
  - apply field_app; [lia|reflexivity].
  - replace (p1 ++ p2 ++ (p3 ++ p4) ++ p5 ++ p6) with ((p1 ++ p2) ++ p3 ++ (p4 ++ p5 ++ p6)) by (rewrite <- !app_assoc; reflexivity).
    apply field_app; [rewrite app_length; lia|reflexivity].
  - replace (p1 ++ p2 ++ (p3 ++ p4) ++ p5 ++ p6) with ((p1 ++ p2 ++ p3) ++ p4 ++ (p5 ++ p6)) by (rewrite <- !app_assoc; reflexivity).
    apply field_app; [rewrite !app_length; lia|reflexivity].
  - replace (p1 ++ p2 ++ (p3 ++ p4) ++ p5 ++ p6) with ((p1 ++ p2 ++ p3 ++ p4) ++ p5 ++ p6) by (rewrite <- !app_assoc; reflexivity).
    apply field_app; [rewrite !app_length; lia|reflexivity].
  - replace (p1 ++ p2 ++ (p3 ++ p4) ++ p5 ++ p6) with ((p1 ++ p2 ++ p3 ++ p4 ++ p5) ++ p6 ++ []) by (rewrite <- !app_assoc, app_nil_r; reflexivity).
    apply field_app; [rewrite !app_length; lia|reflexivity].
Qed.

Lemma decode_in b s : In b s -> exists c, In c (decode_1252 s) /\ decode_byte b = c.
Proof. intros H. exists (decode_byte b). split; auto. apply in_map. auto. Qed.

Lemma encode_none s : encode_1252 s = None <-> exists c, In c s /\ forall b, decode_byte b <> c.
Proof.
  induction s as [|c s IH]; cbn [encode_1252].
  - split; [discriminate|intros (c & [] & _)].
  - destruct (encode_char c) as [b|] eqn:Hc.
    + destruct (encode_1252 s) as [bs|].
      * split; [discriminate|]. intros (d & [<-|Hd] & Hn).
        -- apply encode_char_iff in Hc. destruct (Hn _ Hc).
        -- destruct IH as [_ IH]. discriminate IH. eauto.
      * split; auto. intros _. destruct IH as [IH _]. destruct (IH eq_refl) as (d & Hd & Hn). exists d. split; auto. right; auto.
    + split; auto. intros _. exists c. split; [left; auto|]. intros b Hb. apply encode_char_iff in Hb. congruence.
Qed.

Lemma encode_name_total x : utf8_len (x_name x) < 256 ->
  (exists bs, encode_name x = Ok bs /\ decode_1252 bs = x_name x /\ length bs = length (x_name x) /\ len bs < 256)
  \/ (encode_name x = Err WStringEncodingError /\ exists c, In c (x_name x) /\ forall b, decode_byte b <> c).
Proof.
  intros H. destruct (encode_name x) as [bs|e|p|] eqn:E.
  - left. exists bs. ssplit; auto.
    + apply encode_name_ok; auto.
    + rewrite <- (proj1 (encode_name_ok x bs H) E). unfold decode_1252. rewrite map_length. auto.
    + eapply encode_name_len; eauto.
  - right. pose proof (encode_name_err _ _ E) as ->. split; auto. apply encode_none.
    unfold encode_name in E. destruct (encode_1252 (x_name x)) as [l|] eqn:El; auto.
    pose proof (encode_length _ _ El) as Hl. pose proof (utf8_len_ge (x_name x)). unfold len in *.
    destruct (N.ltb_spec (N.of_nat (length l)) 256); [discriminate|lia].
  - exfalso. unfold encode_name in E. destruct (encode_1252 _); [destruct (_ <? _)|]; discriminate.
  - exfalso. unfold encode_name in E. destruct (encode_1252 _); [destruct (_ <? _)|]; discriminate.
Qed.

Lemma add_file_too_long w name size :
  add_file w name size = Err FileNameTooLong <-> 255 < len (utf8_str name).
Proof.
  rewrite <- utf8_length. unfold add_file, add_node.
  destruct (N.ltb_spec 256 (utf8_len name)); [split; auto; lia|].
  destruct (N.ltb_spec 255 (utf8_len name)); [split; auto; lia|].
  split; [|lia]. destruct (insert _ _ _) as [[t i]|e|p|]; cbn; try discriminate; [destruct i; discriminate|destruct e].
Qed.

Lemma name_total_order : total_order cmp_ignore_case_utf8.
Proof.
  split.
  - intros. apply cmp_ic_opp.
  - intros x y z. apply cmp_ic_trans.
  - intros x y z. rewrite !cmp_ic_eq. congruence.
Qed.
