(** Property C158: packing in a browser whose calls fail. *)
From Verif Require Import M_Base M_Util M_Layout M_Read M_Img M_Dev M_Xfs M_Cli M_Unpack M_Host M_Web M_Gui M_Jobs M_Browser.
From Verif Require Import S_Img S_Web S_Moving S_Gui S_Jobs.
From Verif Require Import P_Vm P_Witness P_Src P_Browser.
From Coq Require Import Init.Byte Strings.String.
From Coq Require Import List.
Local Close Scope string_scope.
Local Open Scope N_scope.

(** C158: whatever calls fail and however files change, a success means that the output
    holds the image of the files as they were when they were copied, none shorter than
    listed; otherwise the output keeps its bytes. *)
Theorem c158_output :
  forall say F m t old fuel new ms r, source t -> br_pack say fuel m F t old = (new, ms, r) ->
  (r = Ok tt -> exists t' evs, same_tree t t' /\ name_sorted t' /\ web_outcome m None (snapshot (f_now F) [] t') old (new, evs, Ok tt)
                 /\ forall p b, at_path t' p (FFile b) -> kept (f_now F) p (len b))
  /\ (r <> Ok tt -> new = old).
Proof. exact c158_output_lemma. Qed.
Print Assumptions c158_output.

(** The page learns how the job ends, whatever calls for files or on the stream fail.
    Missing: failures of listing the source, of opening and of closing the output, and
    files that become shorter. *)
Theorem c158_page_partial :
  forall say F m t old, source t -> br_lists F [] t = true -> f_opens F = true -> f_closes F = true ->
  (forall p b b', at_path t p (FFile b) -> f_now F p = Some b' -> len b <= len b') ->
  settles (fun fuel => br_pack say fuel m F t old) (fun x => let '(_, ms, r) := x in calm_result r /\ ends_once PackPage ms /\ forall b, exists b', receives b ms b' /\ S_Jobs.shows r (b_state b')).
Proof. exact c158_page_lemma. Qed.
Print Assumptions c158_page_partial.

(** z ("hi"), S/c (empty); the stream accepts [n] calls. *)
Definition c158_tree : ftree := FDir [(text "z", FFile [x68; x69]); (text "S", FDir [(text "c", FFile [])])].
Definition c158_fate (lists opens closes : bool) (n : nat) (z : option (list byte)) : fate :=
  mkFate (fun _ => lists) (fun _ => true) opens closes (fun k => Nat.ltb k n) (fun p => if Nat.eqb (List.length p) 1 then z else Some []).
Definition c158_run (F : fate) := br_pack (fun _ => text "error") 10 Debug F c158_tree [x6f].
Definition c158_ends (F : fate) : N * list bmsg * res str unit := (len (fst (fst (c158_run F))), List.filter (fun m => match m with ChangeState _ => true | _ => false end) (snd (fst (c158_run F))), snd (c158_run F)).
Example c158_example :
  source c158_tree
  /\ c158_ends (c158_fate true true true 100 (Some [x68; x69])) = (131072, [ChangeState (Packing PackingImage); ChangeState (Packing WaitingForFlush); ChangeState Finished], Ok tt)
  /\ bytes_eqb (fst (fst (c158_run (c158_fate true true true 100 (Some [x68; x69]))))) (fst (fst (web_pack 10 Debug None c158_tree [x6f]))) = true
  /\ c158_ends (c158_fate true true true 4 (Some [x68; x69])) = (1, [ChangeState (Packing PackingImage); ChangeState (Error (text "error"))], Err (text "error"))
  /\ c158_ends (c158_fate true true true 100 None) = (1, [ChangeState (Packing PackingImage); ChangeState (Error (text "error"))], Err (text "error")).
Proof. split; [apply source_b_ok; vm_compute; reflexivity|]. vm_all. Qed.

(** Finding: if a directory of the source cannot be listed, if the output cannot be opened or
    closed (close asks for permission and for space), or if a file has become shorter, the job
    panics, and the page waits for it forever. *)
Theorem c158_page_refuted :
  exists say m t old, source t /\ forall F, In F [c158_fate false true true 100 (Some [x68; x69]); c158_fate true false true 100 (Some [x68; x69]);
      c158_fate true true false 100 (Some [x68; x69]); c158_fate true true true 100 (Some [x68])] ->
    (exists p, snd (br_pack say 10 m F t old) = Panic p)
    /\ forall b b', is_packing (b_state b) = true -> receives b (snd (fst (br_pack say 10 m F t old))) b' -> stuck PackPage b'.
Proof.
  exists (fun _ => text "error"), Debug, c158_tree, [x6f]. split; [apply source_b_ok; vm_compute; reflexivity|]. intros F HF.
  assert (E : exists p, snd (br_pack (fun _ => text "error") 10 Debug F c158_tree [x6f]) = Panic p).
  { destruct HF as [<-|[<-|[<-|[<-|[]]]]]; eexists; vm_compute; reflexivity. }
  split; [exact E|]. destruct E as (p & E). intros b b'. exact (br_stuck _ _ _ _ _ _ p b b' E).
Qed.
Print Assumptions c158_page_refuted.
