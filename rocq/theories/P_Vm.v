(** Several computations checked at once, so that a checker without the virtual
    machine (coqchk) shares what they have in common. *)

Lemma and_pair {A B} {a x : A} {b y : B} {P : Prop} : (b = y -> P) -> (a, b) = (x, y) -> a = x /\ P.
Proof. intros H E. injection E as E1 E2. split; [exact E1|exact (H E2)]. Qed.

Ltac left_sides G := lazymatch G with ?a = _ /\ ?R => let r := left_sides R in constr:((a, r)) | ?a = _ => constr:(a) end.
Ltac right_sides G := lazymatch G with _ = ?x /\ ?R => let r := right_sides R in constr:((x, r)) | _ = ?x => constr:(x) end.
Ltac as_pairs :=
  lazymatch goal with
  | |- _ = _ -> _ = _ => exact (fun H => H)
  | |- _ -> _ = _ /\ ?R => let l := left_sides R in let r := right_sides R in refine (@and_pair _ _ _ _ l r R _); as_pairs
  end.
(** Proves a conjunction of equations by one run of the virtual machine. *)
Ltac vm_all :=
  lazymatch goal with
  | |- ?G => let l := left_sides G in let r := right_sides G in
      cut (l = r); [as_pairs|vm_compute; reflexivity]
  end.
(** The same, where [X] occurs several times. *)
Ltac vm_with X :=
  lazymatch goal with
  | |- ?G => let l := left_sides G in let r := right_sides G in let f := eval pattern X in l in
      cut (f = r); [cbv beta; as_pairs|vm_compute; reflexivity]
  end.
