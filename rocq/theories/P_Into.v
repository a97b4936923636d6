(** Reading into a buffer, and the first entry of an image (C153, C154). *)
From Verif Require Import M_Base M_Util M_Layout M_Read M_Img.
From Verif Require Import S_Avl S_Codec S_Read S_Img S_Check S_Cli.
From Verif Require Import P_Base P_Read P_Check.
From Coq Require Import Init.Byte Permutation Lia List.
Local Open Scope N_scope.

Lemma slice_shorter (l : list byte) o n k : k <= n -> slice l o k = firstn (N.to_nat k) (slice l o n).
Proof. intros H. unfold slice. rewrite firstn_firstn. f_equal. lia. Qed.
Lemma slice_len (l : list byte) o n : o + n <= len l -> len (slice l o n) = n.
Proof. intros H. unfold slice, len in *. rewrite firstn_length, skipn_length. lia. Qed.
Lemma c153_lemma img base x b buf : b <> [] -> read_data_all (offset_dev (file_dev img) base) x = Ok b -> len buf <= len b ->
  read_data (offset_dev (file_dev img) base) x buf = Ok (firstn (length buf) b).
Proof.
  intros Hb. unfold read_data_all, read_data. destruct (r_size (d_region x) =? 0) eqn:E; [congruence|].
  unfold region_offset. destruct (r_size (d_region x) <=? 0) eqn:E0; [discriminate|]. cbn [bind]. unfold offset_dev, file_dev. rewrite E.
  set (o := SECTOR_SIZE * r_sector (d_region x) + 0 + base). destruct (o + r_size (d_region x) <=? len img) eqn:El; [|discriminate].
  cbn [io map_err]. intros H. injection H as <-. apply N.leb_le in El. rewrite slice_len by lia. intros Hl.
  destruct (len buf =? 0) eqn:E2.
  - apply N.eqb_eq in E2. destruct buf; [reflexivity|unfold len in E2; cbn [length] in E2; lia].
  - assert (E3 : (o + len buf <=? len img) = true) by (apply N.leb_le; lia). rewrite E3. cbn [map_err]. f_equal. rewrite (slice_shorter img o (r_size (d_region x)) (len buf) Hl).
    unfold len. rewrite Nnat.Nat2N.id. reflexivity.
Qed.
Lemma c153_empty_lemma d x buf : r_size (d_region x) = 0 -> read_data d x buf = Ok buf.
Proof. intros H. unfold read_data. rewrite H. reflexivity. Qed.
Lemma c153_size_lemma d x buf b : lawful d -> read_data d x buf = Ok b -> len b = len buf.
Proof.
  intros HL. unfold read_data. destruct (r_size (d_region x) =? 0); [intros H; injection H as <-; reflexivity|].
  unfold region_offset. destruct (r_size (d_region x) <=? 0); [discriminate|]. cbn [bind]. intros H.
  destruct (d (SECTOR_SIZE * r_sector (d_region x) + 0) (len buf)) as [y|e|e|] eqn:E; try discriminate. cbn in H. injection H as <-. eapply HL; eauto.
Qed.

Lemma c154_lemma d v cs : lawful d -> contains d (FDir cs) (v_root v) ->
  match root_dirent d v with
  | Ok (Some e) => e_offset e = 2048 * r_sector (v_root v) /\ stored d e
                   /\ exists t, In (name_str e, t) cs /\ is_dir e = is_fdir t /\ contains d t (region_of e)
  | Ok None => cs = [] /\ 0 < r_size (v_root v)
  | Err DirectoryEmpty => cs = [] /\ r_size (v_root v) = 0
  | _ => False
  end.
Proof.
  intros HL H. unfold root_dirent, region_is_empty, region_offset. apply contains_dir_inv in H as [(-> & H)|(T & es & HD & HP & HF)].
  - rewrite H. cbn. split; reflexivity.
  - destruct HD as (HD & _). assert (Hs : 0 < r_size (v_root v)) by (destruct T as [|l e r]; [apply HD|destruct HD as (H & _); lia]).
    assert (E1 : (r_size (v_root v) =? 0) = false) by (apply N.eqb_neq; lia). assert (E2 : (r_size (v_root v) <=? 0) = false) by (apply N.leb_gt; lia). rewrite E1, E2. cbn [bind].
    rewrite N.add_0_r. change SECTOR_SIZE with 2048. destruct T as [|l e r].
    + destruct HD as (_ & HD). apply (proj2 (read_dirent_none d _ HL)) in HD. rewrite HD. cbn [inorder] in HP. apply Permutation_sym, Permutation_nil in HP. subst es. inversion HF; subst. auto.
    + destruct HD as (_ & Ho & Hst & _). rewrite N.add_0_r in Ho. rewrite (proj2 (read_dirent_iff d _ e HL) (conj Hst Ho)).
      ssplit; auto. assert (Hin : In e es) by (eapply Permutation_in; [apply Permutation_sym, HP|]; cbn [inorder]; apply in_or_app; right; left; reflexivity).
      clear -HF Hin. induction HF as [|[n t] e' cs es (H1 & H2 & H3) _ IH]; [destruct Hin|]. destruct Hin as [->|Hin].
      * exists t. cbn [fst snd] in *. rewrite H1. ssplit; auto. left. reflexivity.
      * destruct (IH Hin) as (t' & I1 & I2 & I3). exists t'. ssplit; auto. right. exact I1.
Qed.
