(** Proofs about the files of a compressed image (C165). *)
From Verif Require Import M_Base M_Util M_Read M_Img M_Dev M_Parts S_Dev S_Parts.
From Verif Require Import P_Base P_Buf P_Flush.
From Coq Require Import Init.Byte Lia.
Local Open Scope N_scope.

(** ** Lists *)
Fixpoint upd {A} (i : nat) (g : A -> A) (l : list A) : list A :=
  match l, i with
  | [], _ => []
  | x :: l, O => g x :: l
  | y :: l, Datatypes.S i => y :: upd i g l
  end.
Lemma asks_upd i pos b fs : asks_for (Put i pos b) fs = upd i (fun f => file_write f pos b) fs.
Proof.
  cbn [asks_for]. assert (G : forall k, map (fun '(j, f) => if Nat.eqb (k + i) j then file_write f pos b else f) (combine (seq k (length fs)) fs) = upd i (fun f => file_write f pos b) fs).
  { revert i. induction fs as [|f fs IH]; intros i k; [destruct i; reflexivity|]. cbn [length seq combine map]. destruct i as [|i]; cbn [upd].
    - rewrite Nat.add_0_r, Nat.eqb_refl. f_equal. clear IH. assert (H : forall n, (k < n)%nat -> map (fun '(j, f) => if Nat.eqb k j then file_write f pos b else f) (combine (seq n (length fs)) fs) = fs).
      { induction fs as [|f' fs IH]; intros n Hn; [reflexivity|]. cbn [length seq combine map]. rewrite (proj2 (Nat.eqb_neq k n)) by lia. f_equal. apply IH. lia. }
      apply H. lia.
    - rewrite (proj2 (Nat.eqb_neq (k + Datatypes.S i) k)) by lia. f_equal. rewrite <- (IH i (Datatypes.S k)). replace (Datatypes.S k + i)%nat with (k + Datatypes.S i)%nat by lia. reflexivity. }
  apply (G 0%nat).
Qed.

(** ** What is in the files *)
Section Parts.
Context {S : Type} (R : raw S) (create : nat -> res ioerr S) (bytes : S -> list byte).
Hypothesis HR : writes_or_fails R bytes.
Hypothesis HC : forall i s, create i = Ok s -> bytes s = [].

Definition holds (p : part S) (f : list byte) : Prop :=
  match p with
  | Opened w => as_file (seen bytes w) = f
  | Dropped s true => bytes s = f
  | Dropped s false => True
  end.
Lemma holds_drop p f : holds p f -> holds (drop_part R p) f.
Proof.
  destruct p as [w|s fl]; [|auto]. cbn [holds drop_part]. unfold bw_drop. destruct (bw_flush R w) as [w' r] eqn:E. cbn [fst snd]. destruct r as [u| | |]; cbn [holds]; auto.
  intros <-. apply (seen_flush R bytes HR) in E. rewrite flush_ok in E. injection E as E _. rewrite E. reflexivity.
Qed.
Lemma holds_put i w' g : forall ps fs, Forall2 holds ps fs -> (exists w, nth_error ps i = Some (Opened w) /\ (forall f, holds (Opened w) f -> holds w' (g f))) -> Forall2 holds (put_nth i w' ps) (upd i g fs).
Proof.
  induction i as [|i IH]; intros ps fs HF (w & Hn & Hg); destruct HF as [|p f ps fs Hp HF]; try discriminate; cbn [put_nth upd nth_error] in *.
  - injection Hn as ->. constructor; auto.
  - constructor; auto. apply IH; eauto.
Qed.
Lemma upd_id {A} i (l : list A) : upd i (fun x => x) l = l.
Proof. revert i. induction l as [|x l IH]; intros [|i]; cbn [upd]; auto. rewrite IH. reflexivity. Qed.
Lemma do_call_holds c ps fs ps' u : Forall2 holds ps fs -> do_call R create c ps = (ps', Ok u) -> Forall2 holds ps' (asks_for c fs).
Proof.
  intros HF. destruct c as [|i pos b|i]; cbn [do_call].
  - destruct (create (length ps)) as [s| | |] eqn:Ec; try discriminate. intros [= <- _]. apply Forall2_app; [exact HF|]. constructor; [|constructor].
    cbn [holds]. unfold seen, bw_new. cbn [bw_in bw_pos bw_buf]. apply HC in Ec. rewrite Ec. reflexivity.
  - destruct (nth_error ps i) as [[w|]|] eqn:En; try discriminate. destruct (dev_write (bufw_wdev R BUF_SIZE) w pos b) as [w' r] eqn:Ew. intros [= <- ->].
    rewrite asks_upd. apply holds_put; [exact HF|]. exists w. split; [exact En|]. cbn [holds]. intros f <-. apply (seen_write R bytes BUF_SIZE HR) in Ew.
    destruct (seek_write_ok BUF_SIZE (seen bytes w) pos b) as (w1 & E1 & E2 & _). rewrite Ew in E1. injection E1 as E1 _. rewrite E1. exact E2.
  - destruct (nth_error ps i) as [[w|]|] eqn:En; try discriminate. intros [= <- _]. cbn [asks_for]. rewrite <- (upd_id i fs). apply holds_put; [exact HF|].
    exists w. split; [exact En|]. intros f Hf. apply (holds_drop (Opened w)). exact Hf.
Qed.
Lemma do_calls_hold cs : forall ps fs ps' u, Forall2 holds ps fs -> do_calls R create cs ps = (ps', Ok u) -> Forall2 holds ps' (fold_left (fun fs c => asks_for c fs) cs fs).
Proof.
  induction cs as [|c cs IH]; intros ps fs ps' u HF; cbn [do_calls fold_left]; [intros [= <- _]; exact HF|].
  destruct (do_call R create c ps) as [ps1 r] eqn:E. destruct r as [v| | |]; try discriminate. apply IH. eapply do_call_holds; eauto.
Qed.
Lemma c165_lemma cs ps u : write_parts R create cs = (ps, Ok u) ->
  Forall2 (fun p f => exists s fl, p = Dropped s fl /\ (fl = true -> bytes s = f)) ps (asked_for cs).
Proof.
  unfold write_parts. destruct (do_calls R create cs []) as [ps' r] eqn:E. intros [= <- ->]. pose proof (do_calls_hold cs [] [] ps' u (Forall2_nil _) E) as H.
  fold (asked_for cs) in H. clear E. induction H as [|p f ps' fs Hp HF IH]; cbn [map]; constructor; [|exact IH].
  apply holds_drop in Hp. destruct p as [w|s fl]; cbn [drop_part holds] in *.
  - eexists. eexists. split; [reflexivity|]. intros Hfl. rewrite Hfl in Hp. exact Hp.
  - exists s, fl. split; [reflexivity|]. intros ->. exact Hp.
Qed.
End Parts.

(** ** Files that never fail *)
Lemma raw_or_fails : writes_or_fails raw_file (fun s => s).
Proof. split; [|reflexivity]. intros s off b s' u. cbn [raw_file raw_write]. intros [= <- _]. reflexivity. Qed.
Definition opened {S} (p : part S) : bool := match p with Opened _ => true | Dropped _ _ => false end.
Lemma nth_opened {S} (ps : list (part S)) i : nth_error (map opened ps) i = Some true -> exists w, nth_error ps i = Some (Opened w).
Proof. intros H. rewrite nth_error_map in H. destruct (nth_error ps i) as [[w|]|]; try discriminate. eauto. Qed.
Lemma put_opened {S} (ps : list (part S)) i x : nth_error ps i <> None -> map opened (put_nth i x ps) = firstn i (map opened ps) ++ [opened x] ++ skipn (i + 1) (map opened ps).
Proof.
  revert i. induction ps as [|p ps IH]; intros [|i] H; cbn [nth_error] in *; try congruence; [reflexivity|].
  cbn [put_nth map firstn]. rewrite IH by exact H. reflexivity.
Qed.
Lemma put_same {S} (ps : list (part S)) i x : (exists w, nth_error ps i = Some (Opened w)) -> opened x = true -> map opened (put_nth i x ps) = map opened ps.
Proof.
  intros (w & H) Hx. revert i H. induction ps as [|p ps IH]; intros [|i] H; cbn [nth_error] in *; try discriminate.
  - injection H as ->. cbn [put_nth map]. rewrite Hx. reflexivity.
  - cbn [put_nth map]. rewrite IH by exact H. reflexivity.
Qed.
Lemma calls_ok cs : forall ps, in_order (map opened ps) cs -> exists ps', do_calls raw_file (fun _ => Ok []) cs ps = (ps', Ok tt).
Proof.
  induction cs as [|c cs IH]; intros ps H; cbn [do_calls]; [eauto|]. destruct c as [|i pos b|i]; cbn [do_call in_order] in *.
  - apply IH. rewrite map_app. exact H.
  - destruct H as (H1 & H2). destruct (nth_opened _ _ H1) as (w & Hw). rewrite Hw. destruct (seek_write_ok BUF_SIZE w pos b) as (w1 & E1 & _). rewrite E1.
    apply IH. rewrite put_same; eauto.
  - destruct H as (H1 & H2). destruct (nth_opened _ _ H1) as (w & Hw). rewrite Hw. apply IH. rewrite put_opened by congruence. exact H2.
Qed.
Definition all_flushed {S} (ps : list (part S)) : Prop := Forall (fun p => match p with Dropped _ false => False | _ => True end) ps.
Lemma flushes (w : bw) : drop_part raw_file (Opened w) = Dropped (as_file w) true.
Proof. cbn [drop_part]. rewrite drop_ok, flush_ok. reflexivity. Qed.
Lemma put_all {A} (P : A -> Prop) i x l : P x -> Forall P l -> Forall P (put_nth i x l).
Proof. intros Hx H. revert i. induction H as [|y l Hy H IH]; intros [|i]; cbn [put_nth]; constructor; auto. Qed.
Lemma calls_flushed cs : forall ps, all_flushed ps -> all_flushed (fst (do_calls raw_file (fun _ => Ok []) cs ps)).
Proof.
  induction cs as [|c cs IH]; intros ps H; cbn [do_calls]; [exact H|].
  destruct c as [|i pos b|i]; cbn [do_call].
  - apply IH. apply Forall_app. split; [exact H|repeat constructor].
  - destruct (nth_error ps i) as [[w|]|]; try exact H. destruct (seek_write_ok BUF_SIZE w pos b) as (w1 & E1 & _). rewrite E1. apply IH. apply put_all; [exact I|exact H].
  - destruct (nth_error ps i) as [[w|]|]; try exact H. apply IH. rewrite flushes. apply put_all; [exact I|exact H].
Qed.
Lemma c165_whole_lemma cs : in_order [] cs ->
  write_parts raw_file (fun _ => Ok []) cs = (map (fun f => Dropped f true) (asked_for cs), Ok tt).
Proof.
  intros H. destruct (calls_ok cs [] H) as (ps & E). pose proof (calls_flushed cs [] (Forall_nil _)) as HF. rewrite E in HF. cbn [fst] in HF.
  assert (W : write_parts raw_file (fun _ => Ok []) cs = (map (drop_part raw_file) ps, Ok tt)) by (unfold write_parts; rewrite E; reflexivity).
  pose proof (c165_lemma raw_file (fun _ => Ok []) (fun s => s) raw_or_fails ltac:(intros i s [= <-]; reflexivity) cs _ _ W) as HL. rewrite W. f_equal.
  clear -HL HF. remember (asked_for cs) as fs. clear Heqfs. revert fs HL. induction ps as [|p ps IH]; intros fs HL; cbn [map] in *; inversion HL as [|? f ? fs' (s & fl & E1 & E2) HL']; subst; [reflexivity|].
  inversion HF as [|? ? F1 F2]; subst. cbn [map]. f_equal; [|apply IH; auto]. destruct p as [w|s0 [|]]; [rewrite flushes in *| |destruct F1]; cbn [drop_part] in *; injection E1 as <- <-; rewrite E2 by reflexivity; reflexivity.
Qed.

(** ** Failures that nobody sees *)
Lemma c165_silent_lemma {S} (R : raw S) create s pos b : create 0%nat = Ok s -> len b < BUF_SIZE ->
  exists s' fl, write_parts R create [Create; Put 0 pos b] = ([Dropped s' fl], Ok tt) /\ write_parts R create [Create; Put 0 pos b; Close 0] = ([Dropped s' fl], Ok tt).
Proof.
  intros Hc Hb. unfold write_parts. cbn [do_calls do_call length]. rewrite Hc. cbn [app nth_error]. cbn [bufw_wdev dev_write]. unfold bw_seek, bw_flush, bw_new, bw_then. cbn [bw_buf fst snd bw_in bw_pos].
  unfold bw_write_all. cbn [bw_buf bw_in bw_pos app]. rewrite (@len_nil byte), N.sub_0_r, (proj2 (N.ltb_lt _ _) Hb). cbn [put_nth do_calls do_call nth_error map drop_part]. eauto.
Qed.
(** ** All files are closed in the end *)
Lemma c165_closed_lemma {S} (R : raw S) create cs p : In p (fst (write_parts R create cs)) -> exists s fl, p = Dropped s fl.
Proof.
  unfold write_parts. destruct (do_calls R create cs []) as [ps r]. cbn [fst]. intros H. apply in_map_iff in H as ([w|s fl] & <- & _); cbn [drop_part]; eauto.
Qed.
