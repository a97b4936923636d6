(** Deciding whether a concrete tree is a [source]. *)
From Verif Require Import M_Base M_Util M_Img S_Img P_Base P_Tree P_More.
From Coq Require Import Lia.
Local Open Scope N_scope.

Fixpoint nodup_b (l : list str) : bool :=
  match l with
  | [] => true
  | x :: l => negb (existsb (str_eqb x) l) && nodup_b l
  end.
Lemma nodup_b_ok l : nodup_b l = true -> NoDup l.
Proof.
  induction l as [|x l IH]; cbn; [constructor|]. intros H. apply andb_true_iff in H as (H1 & H2). constructor; auto.
  intros Hin. apply negb_true_iff in H1. assert (existsb (str_eqb x) l = true); [|congruence]. apply existsb_exists. exists x. split; auto. apply str_eqb_spec. reflexivity.
Qed.
Fixpoint dirs_b (f : list (str * ftree) -> bool) (t : ftree) : bool :=
  match t with
  | FFile _ => true
  | FDir cs => f cs && forallb (fun c => dirs_b f (snd c)) cs
  end.
Lemma dirs_b_ok f (P : list (str * ftree) -> Prop) t : (forall cs, f cs = true -> P cs) -> dirs_b f t = true -> every_dir P t.
Proof.
  intros HF. induction t as [b|cs IH] using ftree_rect'; intros H.
  - apply every_dir_file.
  - cbn [dirs_b] in H. apply andb_true_iff in H as (H1 & H2). apply every_dir_node; auto. rewrite Forall_forall in *. intros c Hc. apply IH; auto.
    rewrite forallb_forall in H2. apply (H2 c Hc).
Qed.

Definition source_b (t : ftree) : bool :=
  is_fdir t && dirs_b (fun cs => nodup_b (map fst cs)) t && dirs_b (fun cs => len cs <=? 7000000) t && (33 + budget t <? u32_modulus).
Lemma source_b_ok t : source_b t = true -> source t.
Proof.
  unfold source_b. rewrite !andb_true_iff. intros (((A & B) & C) & D). split; auto. split; [|split].
  - eapply dirs_b_ok; [|exact B]. intros cs. apply nodup_b_ok.
  - eapply dirs_b_ok; [|exact C]. intros cs H. apply N.leb_le. exact H.
  - apply N.ltb_lt. exact D.
Qed.

(** No slashes in names. *)
Definition plain_b (t : ftree) : bool := dirs_b (fun cs => forallb (fun n => negb (existsb (N.eqb 47) n)) (map fst cs)) t.
