(** Property C173: dry runs of build-image. *)
From Verif Require Import M_Base M_Util M_Layout M_Read M_Img M_Dev M_Xfs M_Trie M_Remap M_Cli M_Unpack M_Exiso M_Stdfs M_Host M_Build M_Main M_Dry.
From Verif Require Import S_Read S_Img S_Remap S_Unpack S_Exiso S_Stdfs S_Build S_Dry.
From Verif Require Import P_Base P_Host P_Stdfs P_Build P_Src P_Dry.
From Verif Require Import M_Host M_Build.
From Coq Require Import Init.Byte Strings.String.
From Coq Require Import List.
Local Close Scope string_scope.
Local Open Scope N_scope.

(** C173: if build-image ends with success, a dry run with the same rules in the same
    world ends with success, leaves the world as it is, and prints pairs that tell, of
    each file of the image that was built, which host file it is. *)
Theorem c173_tells :
  forall H mm fuel0 dup pk fuel m wax ls toml cwd rs cfg out s i w w' p t d o,
  let run d dry := main H mm fuel0 dup cwd pk (Core (inl (OtherCmd (build_effect fuel d m wax ls toml cwd (by_options rs out dry (Some s) (Some i)))))) in
  mapM parse_rule rs = Ok cfg -> canonicalize (w_fs w) cwd s = Ok p -> hosts (w_fs w) ls p t -> is_fdir t = true -> proper t ->
  no_dotdot i -> (~ leads_to p (place cwd i) \/ w_fs w (place cwd i) = None) ->
  run d false w = mkProcess w' o None (Some 0) ->
  exists t' img pairs, w_fs w' (place cwd i) = Some (HFile img) /\ packs m t' img /\ tells_files pairs t t'
   /\ returns (fun d => run d true w) (mkProcess w (map arrow pairs) None (Some 0)).
Proof. exact c173_lemma. Qed.
Print Assumptions c173_tells.

(** No dry run changes anything, however it ends. *)
Theorem c173_unchanged :
  forall H mm fuel0 dup pk fuel m wax ls toml cwd d a w, b_dry_run a = true ->
  p_world (main H mm fuel0 dup cwd pk (Core (inl (OtherCmd (build_effect fuel d m wax ls toml cwd a)))) w) = w.
Proof. exact c173_unchanged_lemma. Qed.
Print Assumptions c173_unchanged.

(** Patterns that match themselves only. *)
Definition c173_wax (pat : str) : option glob := Some (fun s => if str_eqb pat s then Some (fun i => if i =? 0 then Some s else None) else None).
Definition c173_tree : ftree := FDir [(text "a", FFile [x68; x69]); (text "b", FFile [x78]); (text "s", FDir [(text "c", FFile [])])].
Definition c173_world : world := planted (text "d") c173_tree.
Definition c173_run (rs : list str) (dry : bool) : process :=
  main (fun _ => []) Debug 10 (fun _ => true) [] (fun _ _ => ([], Ok tt)) (Core (inl (OtherCmd
    (build_effect 10 10 Debug c173_wax (planted_ls c173_tree) (fun _ => None) [] (by_options rs None dry (Some (text "d")) (Some (text "i"))))))) c173_world.
Definition c173_rules : list str := [text "a:/X/{0}.txt"; text "s:/t"].

(** The file "a" goes to another directory, "b" does not take part, and the directory
    "s" is renamed. *)
Example c173_example :
  hosts (w_fs c173_world) (planted_ls c173_tree) [text "d"] c173_tree
  /\ p_status (c173_run c173_rules false) = Some 0
  /\ p_status (c173_run c173_rules true) = Some 0
  /\ p_out (c173_run c173_rules true) = [text "/s -> /t"; text "/a -> /X/a.txt"; text "/s/c -> /t/c"].
Proof.
  split; [apply planted_hosts; apply (source_b_ok c173_tree); vm_compute; reflexivity|]. vm_compute. repeat split.
Qed.

(** A dry run does not tell that an image cannot be built: names that differ only in
    their case. *)
Example c173_dry_only :
  p_status (c173_run [text "a:/x"; text "b:/X"] true) = Some 0 /\ p_status (c173_run [text "a:/x"; text "b:/X"] false) = Some 1.
Proof. vm_compute. repeat split. Qed.
