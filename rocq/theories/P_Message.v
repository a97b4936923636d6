(** Messages (C134). *)
From Verif Require Import M_Base M_Remap M_Cli M_Message S_Message S_Remap P_Base P_Template.
From Coq Require Import Strings.String Lia.
From Coq Require Import List.
Local Close Scope string_scope.
Local Open Scope N_scope.

Ltac literals H := repeat match type of H with context [text ?s] => let l := eval vm_compute in (text s) in change (text s) with l in H end.
Ltac apart H := exfalso; literals H; cbn [app] in H; discriminate H.

(** Numbers end where no digit follows. *)
Lemma digits_then a b x y : Forall is_digit a -> Forall is_digit b -> ~ (exists c r, x = c :: r /\ is_digit c) -> ~ (exists c r, y = c :: r /\ is_digit c) ->
  a ++ x = b ++ y -> a = b /\ x = y.
Proof.
  revert b. induction a as [|c a IH]; intros [|d b] Ha Hb Hx Hy E; cbn [app] in E.
  - auto.
  - destruct Hx. exists d, (b ++ y). split; [exact E|]. inversion Hb; auto.
  - destruct Hy. exists c, (a ++ x). split; [auto|]. inversion Ha; auto.
  - injection E as -> E. inversion Ha; inversion Hb; subst. destruct (IH b) as (-> & ->); auto.
Qed.

Lemma read_apart {E B} (show : E -> str) (bincode : B -> str) : tells_apart show -> tells_apart bincode -> tells_apart (read_message show bincode).
Proof.
  intros Hs Hb x y H. destruct x, y; cbn [read_message read_to_str] in H; try reflexivity; try (apart H).
  - apply app_inv_head in H. apply Hs in H. subst. reflexivity.
  - apply app_inv_head in H. apply digits_then in H as (H1 & H2); try apply decimal_digits.
    + apply decimal_inj in H1. apply app_inv_head, decimal_inj in H2. subst. reflexivity.
    + intros (c & r & Q & Hc). literals Q. cbn [app] in Q. injection Q as <- _. unfold is_digit in Hc. lia.
    + intros (c & r & Q & Hc). literals Q. cbn [app] in Q. injection Q as <- _. unfold is_digit in Hc. lia.
  - apply app_inv_head in H. apply Hb in H. subst. reflexivity.
Qed.
Lemma structure_apart {B} (bincode : B -> str) : tells_apart bincode -> tells_apart (structure_message bincode).
Proof.
  intros Hb x y H. destruct x, y; cbn [structure_message structure_to_str] in H; try reflexivity; try (apart H). apply app_inv_head in H. apply Hb in H. subst. reflexivity.
Qed.
Lemma write_apart {D H C B} (dev : D -> str) (hier : H -> str) (copy : C -> str) (bincode : B -> str) : tells_apart dev -> tells_apart hier -> tells_apart copy -> tells_apart bincode ->
  tells_apart (write_message dev hier copy bincode).
Proof.
  intros H1 H2 H3 H4 x y E. unfold write_message in E. destruct x, y; cbn [write_to_str] in E; try (apart E); apply app_inv_head, app_inv_head in E; f_equal; auto.
  apply (structure_apart bincode H4). exact E.
Qed.
Lemma image_fs_apart {R W B} (rd : R -> str) (wr : W -> str) (bincode : B -> str) : tells_apart rd -> tells_apart wr -> tells_apart bincode -> tells_apart (image_fs_message rd wr bincode).
Proof.
  intros H1 H2 H3 x y E. unfold image_fs_message in E. destruct x, y; cbn [image_fs_to_str] in E; try (apart E); apply app_inv_head, app_inv_head in E; f_equal; auto.
  apply (read_apart rd bincode H1 H3). exact E.
Qed.
Lemma overlay_apart {E} (show : E -> str) : tells_apart show -> tells_apart (overlay_message show).
Proof. intros Hs x y H. destruct x, y; cbn [overlay_message] in H; try (apart H); apply app_inv_head in H; f_equal; auto. Qed.
Lemma building_apart {E G} (show : E -> str) (wax : G -> str) : tells_apart show -> tells_apart wax -> tells_apart (building_message show wax).
Proof.
  intros Hs Hw x y H. destruct x, y; cbn [building_message] in H; try (apart H); try (apply app_inv_head in H; f_equal; auto; fail).
  apply app_inv_head in H. apply (f_equal (@rev N)) in H. rewrite !rev_app_distr in H. rewrite <- !app_assoc in H.
  assert (K : kind = kind0).
  { destruct kind, kind0; try reflexivity; exfalso; literals H; cbn [rev app] in H; discriminate H. }
  subst kind0. apply app_inv_head, app_inv_head in H. apply digits_then in H as (H1 & H2).
  - apply (f_equal (@rev N)) in H1. rewrite !rev_involutive in H1. apply decimal_inj in H1. apply app_inv_head in H2. apply (f_equal (@rev N)) in H2. rewrite !rev_involutive in H2. subst. reflexivity.
  - apply Forall_rev, decimal_digits.
  - apply Forall_rev, decimal_digits.
  - intros (c & r & Q & Hc). literals Q. cbn [rev app] in Q. injection Q as <- _. unfold is_digit in Hc. lia.
  - intros (c & r & Q & Hc). literals Q. cbn [rev app] in Q. injection Q as <- _. unfold is_digit in Hc. lia.
Qed.

(** The message of what is wrapped comes last. *)
Lemma ends_app a b c : ends_with b c -> ends_with (a ++ b) c.
Proof. intros (x & ->). exists (a ++ x). rewrite app_assoc. reflexivity. Qed.
Lemma ends_self a : ends_with a a.
Proof. exists []. reflexivity. Qed.
Lemma messages_nested {D H C B R W} (dev : D -> str) (hier : H -> str) (copy : C -> str) (bincode : B -> str) (rd : R -> str) (wr : W -> str) :
  (forall e, ends_with (write_message dev hier copy bincode (WBlockDeviceError e)) (dev e))
  /\ (forall e, ends_with (write_message dev hier copy bincode (WFilesystemHierarchyError e)) (hier e))
  /\ (forall e, ends_with (write_message dev hier copy bincode (WFilesystemCopierError e)) (copy e))
  /\ (forall e, ends_with (write_message dev hier copy bincode (WInvalidFileStructureError e)) (structure_message bincode e))
  /\ (forall b, ends_with (structure_message bincode (SSerializationError b)) (bincode b))
  /\ (forall e, ends_with (read_message rd bincode (RIOError e)) (rd e))
  /\ (forall e, ends_with (image_fs_message rd wr bincode (IFilesystemReadErr e)) (read_message rd bincode e))
  /\ (forall e, ends_with (overlay_message rd (OUnderlyingError e)) (rd e)).
Proof. ssplit; intros e; repeat apply ends_app; apply ends_self. Qed.
