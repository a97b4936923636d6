(** Property C138: the operations on the paths of a filesystem ([PathVec]). *)
From Verif Require Import M_Base M_Util M_Layout M_Read M_Img M_Trie M_Cli M_Host M_Pathvec.
From Verif Require Import S_Read S_Img S_Cli S_Unpack S_Target S_Noimage.
From Verif Require Import P_Vm.
From Verif Require Import P_Base P_Noimage.
From Coq Require Import Init.Byte Strings.String.
From Coq Require Import List.
Local Close Scope string_scope.
Local Open Scope N_scope.

(** C138: the base of a path that was extended by a name is the path; the root has
    no base. *)
Theorem c138_base_of :
  forall m (p : path) n, path_base (E:=unit) m (from_base p n) = Ok p.
Proof. exact c138_base. Qed.
Print Assumptions c138_base_of.
Theorem c138_base_of_root :
  forall m, exists k, path_base (E:=unit) m [] = Panic k.
Proof. exact c138_root. Qed.
Print Assumptions c138_base_of_root.
(** What follows a prefix is the rest of the path, the root if the path is itself a
    prefix, and a panic otherwise. *)
Theorem c138_suffix_of :
  forall p q : path,
  (forall s, p = q ++ s -> path_suffix (E:=unit) p q = Ok s)
  /\ (forall r, q = p ++ r -> path_suffix (E:=unit) p q = Ok [])
  /\ ((forall s, p <> q ++ s) -> (forall r, q <> p ++ r) -> path_suffix (E:=unit) p q = Panic PAssert).
Proof. exact c138_suffix. Qed.
Print Assumptions c138_suffix_of.
(** The text of a path is a slash and the names with slashes between them; reading
    the text again gives the path, so different paths have different texts. *)
Theorem c138_as_string :
  forall p : path, ordinary p -> as_string p = 47 :: slashed p /\ path_from_iter (split_slash (as_string p)) = p.
Proof. exact c138_text. Qed.
Print Assumptions c138_as_string.
Theorem c138_as_string_distinguishes :
  forall p q : path, ordinary p -> ordinary q -> as_string p = as_string q -> p = q.
Proof. exact c138_inj. Qed.
Print Assumptions c138_as_string_distinguishes.
(** As a path of the host it denotes the place below the prefix. *)
Theorem c138_as_path_buf :
  forall cwd prefix p, Forall unix_name p -> place cwd (as_path_buf p prefix) = place cwd prefix ++ p.
Proof. exact c138_place. Qed.
Print Assumptions c138_as_path_buf.

Example c138_example :
  let p := [text "a"; text "b c"] in
  path_base (E:=unit) Release p = Ok [text "a"] /\ path_suffix (E:=unit) p [text "a"] = Ok [text "b c"]
  /\ path_suffix (E:=unit) p [text "x"] = Panic PAssert /\ path_suffix (E:=unit) [text "a"] p = Ok []
  /\ as_string p = text "/a/b c" /\ as_path_buf p (text "out") = text "out/a/b c" /\ as_path_buf [] (text "out") = text "out/"
  /\ place [text "h"] (as_path_buf p (text "./out")) = [text "h"; text "out"; text "a"; text "b c"].
Proof. cbv zeta. vm_all. Qed.
