(** Property C157: unpacking on Windows (cmd_unpack.rs, with the rules of std::path for
    Windows). [wplace env s] is the drive and the names to which a path leads. *)
From Verif Require Import M_Base M_Util M_Layout M_Read M_Img M_Cli M_Win.
From Verif Require Import S_Codec S_Read S_Img S_Check S_Cli S_Win.
From Verif Require Import P_Base P_Vm P_Witness P_Src P_Cli P_Win Prop_Unpack.
From Coq Require Import Init.Byte Strings.String.
From Coq Require Import List.
Local Close Scope string_scope.
Local Open Scope N_scope.

(** C157, partial: if no name has a separator or a colon, the paths that are created
    are those of the entries, below the destination. Missing: other names. *)
Theorem c157_below_partial :
  forall env fuel file dest t d v tree, is_image file t -> win_tree t -> on_disk dest ->
  open_image file = Ok d -> read_volume d = Ok v -> file_tree fuel d (v_root v) = Ok tree ->
  exists ns, enumerates t ns
    /\ Forall2 (fun x y => wplace env (win_target dest x) = (fst (wplace env dest), snd (wplace env dest) ++ fst y)) tree ns.
Proof. exact c157_lemma. Qed.
Print Assumptions c157_below_partial.

(** On drive C, with the working directory \w. *)
Definition c157_env : wenv := mkWenv 67 (fun c => if c =? 67 then [text "w"] else []).
Definition c157_listing (img : list byte) : res rerr (list (str * dentry)) :=
  let* d := open_image img in let* v := read_volume d in file_tree 9 d (v_root v).
Example c157_example :
  (let* l := c157_listing c48_img in Ok (map (fun x => wplace c157_env (win_target (text "d:\out") x)) l))
    = Ok [(Some 68, [text "out"; text "a"]); (Some 68, [text "out"; text "S"]);
          (Some 68, [text "out"; text "S"; text "D"]); (Some 68, [text "out"; text "S"; text "E"]); (Some 68, [text "out"; text "S"; text "D"; text "c"])]
  /\ wplace c157_env (text "..\x") = (Some 67, [text "x"]) /\ wplace c157_env (text "c:y/z") = (Some 67, [text "w"; text "y"; text "z"]).
Proof. vm_all. Qed.

(** Finding: names with backslashes and colons, which mean nothing in an image, lead
    out of the destination. *)
Theorem c157_below_refuted :
  exists env dest img1 img2 img3, on_disk dest /\ wplace env dest = (Some 67, [text "w"; text "out"])
    /\ (let* l := c157_listing img1 in Ok (map (fun x => (name_str (snd x), wplace env (win_target dest x))) l)) = Ok [(text "..\x", (Some 67, [text "w"; text "x"]))]
    /\ (let* l := c157_listing img2 in Ok (map (fun x => (name_str (snd x), wplace env (win_target dest x))) l)) = Ok [(text "\x", (Some 67, [text "x"]))]
    /\ (let* l := c157_listing img3 in Ok (map (fun x => (name_str (snd x), wplace env (win_target dest x))) l)) = Ok [(text "d:x", (Some 68, [text "x"]))].
Proof.
  exists c157_env, (text "out"), (c47_img [x2e; x2e; x5c; x78]), (c47_img [x5c; x78]), (c47_img [x64; x3a; x78]).
  split; [intros a b s [= <- <- <-] [[H|H] _]; discriminate|]. vm_all.
Qed.
Print Assumptions c157_below_refuted.
