(** What the bytes of an image depend on (C145, C146). *)
From Verif Require Import M_Base M_Util M_Layout M_Avl M_Sector M_Dirtab M_Read M_Img.
From Verif Require Import M_Dev M_Xfs.
From Verif Require Import S_Avl S_Codec S_Table S_Read S_Img.
From Verif Require Import P_Base P_Tree P_File P_Run P_Packed P_More P_Src P_Tidy.
From Coq Require Import Init.Byte Lia Permutation.
From Coq Require Import List.
Local Open Scope N_scope.

(** ** The two builds *)
Definition agree {E A} (a b : res E A) : Prop := a = Panic POverflow \/ a = b.
Lemma agree_refl {E A} (a : res E A) : agree a a.
Proof. right. reflexivity. Qed.
Lemma agree_bind {E A B} (a b : res E A) (f g : A -> res E B) : agree a b -> (forall x, agree (f x) (g x)) -> agree (bind a f) (bind b g).
Proof. intros [->| ->] H; [left; reflexivity|]. destruct b as [x|e|p|]; cbn [bind]; [apply H|right; reflexivity..]. Qed.
Lemma agree_map_err {E F A} (h : E -> F) (a b : res E A) : agree a b -> agree (map_err h a) (map_err h b).
Proof. intros [->| ->]; [left; reflexivity|right; reflexivity]. Qed.
Lemma agree_fold {E A B} (f g : A -> B -> res E A) : (forall a x, agree (f a x) (g a x)) -> forall l a, agree (foldM f a l) (foldM g a l).
Proof. intros H. induction l as [|x l IH]; intros a; cbn [foldM]; [apply agree_refl|]. apply agree_bind; auto. Qed.

Lemma add_agree {E} a b : agree (@u32_add E Debug a b) (u32_add Release a b).
Proof. unfold u32_add. destruct (a + b <? u32_modulus); [right|left]; reflexivity. Qed.
Lemma required_agree {E} n : agree (@required_sectors E Debug n) (required_sectors Release n).
Proof. unfold required_sectors. destruct (n =? 0); [apply agree_refl|]. destruct (_ <? _); [apply add_agree|apply agree_refl]. Qed.
Lemma allocate_agree {E} nf n : agree (@allocate_contiguous E Debug nf n) (allocate_contiguous Release nf n).
Proof. apply agree_bind; [apply required_agree|]. intros s. apply agree_bind; [apply add_agree|]. intros x. apply agree_refl. Qed.
Lemma align_agree {E} o i : agree (@sector_align E Debug o i) (sector_align Release o i).
Proof. apply agree_bind; [apply required_agree|]. intros u. apply agree_bind; [apply required_agree|]. intros n. apply agree_refl. Qed.
Lemma add_dir_agree w name size : agree (add_dir Debug w name size) (add_dir Release w name size).
Proof. apply agree_bind; [apply add_agree|]. intros s. apply agree_refl. Qed.
Lemma compute_size_agree w : agree (compute_size Debug w) (compute_size Release w).
Proof.
  apply agree_bind; [apply agree_refl|]. intros l. apply agree_bind; [|intros; apply agree_refl]. apply agree_fold. intros a x.
  apply agree_bind; [apply agree_refl|]. intros n. apply agree_bind; [apply add_agree|]. intros b. apply agree_bind; [apply align_agree|]. intros c. apply add_agree.
Qed.
Lemma offsets_agree k : forall i final offs, agree (offsets_loop Debug k i final offs) (offsets_loop Release k i final offs).
Proof.
  induction k as [|k IH]; intros i final offs; cbn [offsets_loop]; [apply agree_refl|].
  apply agree_bind; [apply agree_refl|]. intros a. apply agree_bind; [apply agree_refl|]. intros b. apply agree_bind; [apply agree_refl|]. intros n.
  apply agree_bind; [apply align_agree|]. intros adj. apply agree_bind; [apply agree_refl|]. intros _. apply IH.
Qed.
Lemma disk_step_agree offs st x : agree (disk_step Debug offs st x) (disk_step Release offs st x).
Proof.
  unfold disk_step. destruct st as [[bytes listing] nf]. destruct x as [idx n].
  apply agree_bind; [apply agree_refl|]. intros name. apply agree_bind; [apply agree_refl|]. intros l. apply agree_bind; [apply agree_refl|]. intros r.
  apply agree_bind; [apply allocate_agree|]. intros [nf' s]. apply agree_refl.
Qed.
Lemma disk_repr_agree w nf : agree (disk_repr Debug w nf) (disk_repr Release w nf).
Proof.
  unfold disk_repr. destruct (table_is_empty w); [apply agree_refl|]. apply agree_bind; [apply agree_refl|]. intros t. apply agree_bind; [apply agree_refl|]. intros lens.
  destruct lens as [|l lens]; [apply agree_refl|]. apply agree_bind; [apply agree_bind; [apply agree_refl|]; intros final; apply offsets_agree|]. intros offs.
  apply agree_bind; [apply agree_fold, disk_step_agree|]. intros [[bytes listing] nf']. apply agree_bind; [|intros _; apply agree_refl].
  destruct (w_size w); [apply agree_refl|]. apply agree_bind; [apply compute_size_agree|]. intros w'. apply agree_refl.
Qed.

(** A computation in a debug build panics because of an overflow, or is the one in a release build. *)
Definition pagree {D A} (a b : prog D A) : Prop := forall s, snd (a s) = Panic POverflow \/ a s = b s.
Lemma pagree_refl {D A} (a : prog D A) : pagree a a.
Proof. intros s. right. reflexivity. Qed.
Lemma pagree_bind {D A B} (a b : prog D A) (f g : A -> prog D B) : pagree a b -> (forall x, pagree (f x) (g x)) -> pagree (pbind a f) (pbind b g).
Proof.
  intros H K s. unfold pbind. destruct (H s) as [E|E].
  - destruct (a s) as [s' r]. cbn [snd] in E. subst r. left. reflexivity.
  - rewrite E. destruct (b s) as [s' [x|e|p|]]; [apply K|right; reflexivity..].
Qed.
Lemma pagree_lift {D A} (a b : res werr A) : agree a b -> @pagree D A (plift a) (plift b).
Proof. intros [->| ->] s; [left; reflexivity|right; reflexivity]. Qed.
Lemma table_step_agree st x : agree (table_step Debug st x) (table_step Release st x).
Proof.
  apply agree_bind.
  - apply agree_fold. intros w e. unfold add_entry. destruct (f_type e); [apply agree_refl|]. apply agree_bind; [apply agree_refl|]. intros t. apply agree_bind; [apply agree_refl|]. intros s. apply add_dir_agree.
  - intros w. apply agree_bind; [apply compute_size_agree|]. intros w'. apply agree_refl.
Qed.
Lemma add_tables_agree {D} (W : wdev D) fs tables : forall nf secs, pagree (add_tables Debug W fs tables nf secs) (add_tables Release W fs tables nf secs).
Proof.
  induction tables as [|[p w] tables IH]; intros nf secs; cbn [add_tables]; [apply pagree_refl|].
  apply pagree_bind; [apply pagree_refl|]. intros sector. apply pagree_bind; [apply pagree_lift, agree_map_err, disk_repr_agree|]. intros [t nf'].
  apply pagree_bind; [apply pagree_refl|]. intros _. apply pagree_bind; [apply pagree_refl|]. intros _. apply pagree_bind; [apply pagree_refl|]. intros secs'. apply IH.
Qed.
Lemma c145_lemma D fuel (W : wdev D) fs s :
  snd (create_xdvdfs_image fuel Debug W fs s) = Panic POverflow \/ create_xdvdfs_image fuel Debug W fs s = create_xdvdfs_image fuel Release W fs s.
Proof.
  revert s. change (pagree (create_xdvdfs_image fuel Debug W fs) (create_xdvdfs_image fuel Release W fs)). unfold create_xdvdfs_image.
  apply pagree_bind; [apply pagree_refl|]. intros dirtree. apply pagree_bind.
  { apply pagree_bind; [apply pagree_lift, agree_map_err, agree_fold, table_step_agree|]. intros [tables count]. apply pagree_refl. }
  intros tables. apply pagree_bind; [apply pagree_refl|]. intros [rp rd]. apply pagree_bind; [apply pagree_refl|]. intros rsz.
  apply pagree_bind; [apply pagree_lift, allocate_agree|]. intros [nf rsec]. apply pagree_bind; [apply add_tables_agree|]. intros _. apply pagree_refl.
Qed.

(** ** The same listing *)
Lemma packs_other m m' t img : source t -> packs m t img -> packs m' t img.
Proof.
  intros HS (fs & fuel & evs & evs' & Hp & Hc & Hrun). exists fs, fuel, evs, evs'. split; [exact Hp|]. split; [exact Hc|].
  destruct m, m'; try exact Hrun.
  - destruct (c145_lemma _ fuel file_wdev fs ([], evs)) as [H|H]; rewrite Hrun in H; [discriminate|]. symmetry. exact H.
  - destruct (c145_lemma _ fuel file_wdev fs ([], evs)) as [H|H]; [|rewrite H; exact Hrun]. exfalso.
    destruct HS as (Ht & HP & Hs). destruct (pack_file Debug t HP Hs Ht) as [(pls & rs & HL & K)|(e & img' & es & Hr & K)].
    + destruct (create_xdvdfs_image fuel Debug file_wdev fs ([], evs)) as [st r] eqn:E. cbn [snd] in H. subst r.
      apply (create_more Debug file_wdev fs fuel (fuel + S (length (dirs [] t)))) in E; [|discriminate|lia]. rewrite (K fs _ evs Hp Hc) in E by lia. discriminate.
    + destruct (create_xdvdfs_image fuel Debug file_wdev fs ([], evs)) as [st r] eqn:E. cbn [snd] in H. subst r.
      apply (create_more Debug file_wdev fs fuel (fuel + S (length (dirs [] t)))) in E; [|discriminate|lia].
      destruct (K fs (fuel + S (length (dirs [] t)))%nat evs Hp Hc) as (K1 & _); [lia|]. rewrite K1 in E. discriminate.
Qed.
Lemma c146_lemma m m' t img img' : source t -> packs m t img -> packs m' t img' -> img = img'.
Proof.
  intros HS H1 H2. apply (packs_other m' m t img' HS) in H2. destruct HS as (Ht & HP & Hs).
  destruct H1 as (fs & fuel & evs & evs' & Hp & Hc & Hrun). destruct H2 as (fs2 & fuel2 & evs2 & evs2' & Hp2 & Hc2 & Hrun2).
  apply (create_more m file_wdev fs fuel (fuel + S (length (dirs [] t)))) in Hrun; [|discriminate|lia].
  apply (create_more m file_wdev fs2 fuel2 (fuel2 + S (length (dirs [] t)))) in Hrun2; [|discriminate|lia].
  destruct (pack_file m t HP Hs Ht) as [(pls & rs & HL & H)|(e & img0 & es & Hr & H)].
  - rewrite (H fs _ evs Hp Hc) in Hrun by lia. rewrite (H fs2 _ evs2 Hp2 Hc2) in Hrun2 by lia. injection Hrun as <- _. injection Hrun2 as <- _. reflexivity.
  - destruct (H fs (fuel + S (length (dirs [] t)))%nat evs Hp Hc) as (H1 & _); [lia|]. rewrite H1 in Hrun. discriminate.
Qed.

(** ** Other listings *)
Definition four (l : list N) : ftree := FDir (map (fun c => ([c], FFile [])) l).
Definition four_img (l : list N) : list byte := fst (fst (create_xdvdfs_image 10 Debug file_wdev (std_fs (four l)) ([], []))).
(** The first character of the first name in the root table tells them apart. *)
Definition first_name (img : list byte) : list byte := slice img 67598 1.
Lemma four_run l b : source_b (four l) = true ->
  (let r := create_xdvdfs_image 10 Debug file_wdev (std_fs (four l)) ([], []) in (snd r, first_name (fst (fst r)))) = (Ok tt, [b]) ->
  source (four l) /\ packs Debug (four l) (four_img l) /\ first_name (four_img l) = [b].
Proof.
  intros H E. apply source_b_ok in H. cbv zeta in E. injection E as E1 E2. split; [exact H|]. split; [|exact E2]. apply std_packs; auto.
Qed.
Lemma four_abcd : source (four [97; 98; 99; 100]) /\ packs Debug (four [97; 98; 99; 100]) (four_img [97; 98; 99; 100]) /\ first_name (four_img [97; 98; 99; 100]) = [x62].
Proof. apply four_run; vm_compute; reflexivity. Qed.
Lemma four_cbda : source (four [99; 98; 100; 97]) /\ packs Debug (four [99; 98; 100; 97]) (four_img [99; 98; 100; 97]) /\ first_name (four_img [99; 98; 100; 97]) = [x63].
Proof. apply four_run; vm_compute; reflexivity. Qed.
Lemma four_same : same_tree (four [97; 98; 99; 100]) (four [99; 98; 100; 97]).
Proof.
  unfold four. cbn [map]. eapply same_dir; [|repeat constructor].
  apply (Permutation_trans (l' := [([98], FFile []); ([99], FFile []); ([100], FFile []); ([97], FFile [])])); [apply perm_swap|].
  apply (Permutation_trans (l' := [([97], FFile []); ([98], FFile []); ([99], FFile []); ([100], FFile [])])); [|apply Permutation_refl].
  apply Permutation_sym. apply (Permutation_cons_app [([98], FFile []); ([99], FFile []); ([100], FFile [])] []). apply Permutation_refl.
Qed.
Lemma c146_order : exists t t' img img', source t /\ source t' /\ same_tree t t' /\ packs Debug t img /\ packs Debug t' img' /\ img <> img'.
Proof.
  exists (four [97; 98; 99; 100]), (four [99; 98; 100; 97]), (four_img [97; 98; 99; 100]), (four_img [99; 98; 100; 97]).
  destruct four_abcd as (A1 & A2 & A3), four_cbda as (B1 & B2 & B3). ssplit; auto; [exact four_same|].
  intros H. rewrite H, B3 in A3. discriminate A3.
Qed.
Lemma c146_again_run : (let r := repacked (four_img [99; 98; 100; 97]) in (snd r, first_name (fst r))) = (Ok tt, [x62]).
Proof. vm_compute. reflexivity. Qed.
Lemma c146_again : exists t img img' evs, source t /\ packs Debug t img
  /\ repack 100 Debug file_wdev (file_dev img) (default_copier (file_dev img) file_wdev) ([], []) = ((img', evs), Ok tt) /\ img <> img'.
Proof.
  destruct four_cbda as (B1 & B2 & B3). pose proof c146_again_run as H. unfold repacked in H. cbv zeta in H. revert B1 B2 B3 H.
  generalize (four_img [99; 98; 100; 97]). generalize (four [99; 98; 100; 97]). intros t img B1 B2 B3 H.
  destruct (repack 100 Debug file_wdev (file_dev img) (default_copier (file_dev img) file_wdev) ([], [])) as [[img' evs] o] eqn:E.
  cbn [fst snd] in H. injection H as -> H. exists t, img, img', evs. ssplit; auto. intros <-. rewrite B3 in H. discriminate H.
Qed.
