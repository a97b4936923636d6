(** Properties C79-C84: build-image and image-spec (cmd_build_image.rs). [toml] is
    the TOML parser; [mk] builds the overlay of a host directory for some rules and
    [pk] packs it, so both may also fail. *)
From Verif Require Import M_Base M_Util M_Layout M_Read M_Img M_Dev M_Xfs M_Trie M_Remap M_Cli M_Unpack M_Exiso M_Stdfs M_Host M_Build.
From Verif Require Import S_Avl S_Codec S_Table S_Read S_Img S_Dev S_Trie S_Remap S_Xfs S_Check S_Cli S_Unpack S_Exiso S_Stdfs S_Build.
From Verif Require Import P_Base P_Witness P_More P_Src P_Host P_Unpack P_Exiso P_Stdfs P_Build P_Progress.
From Verif Require Import M_Host M_Build.
From Coq Require Import Init.Byte Strings.String.
From Coq Require Import List.
Local Close Scope string_scope.
Local Open Scope N_scope.

(** C79, partial: a -m argument with at most one colon is read as the documented
    rule, and is refused if there is none. Missing: further colons. *)
Theorem c79_map_rules_partial :
  forall rule, (forall h i j, rule <> h ++ 58 :: i ++ 58 :: j) -> forall r, parse_rule rule = Ok r <-> rule_of rule r.
Proof. exact (fun rule Hn r => conj (fun H => c79_lemma rule r H Hn) (fun H => c79_complete rule r H Hn)). Qed.
Print Assumptions c79_map_rules_partial.

Example c79_example :
  parse_rule (text "assets/*.png:/img/{1}.png") = Ok (text "assets/*.png", text "/img/{1}.png") /\ parse_rule (text "!old/**") = Ok (text "!old/**", [])
  /\ parse_rule (text "bin") = Err HRefused /\ parse_rule (text "!a:b") = Ok (text "!a", text "b").
Proof. vm_compute. auto. Qed.

(** Finding: a rule of a spec whose pattern has a colon, like the repetition
    <[0-9]:1,2>, cannot be given with -m; it is accepted as another rule. *)
Theorem c79_map_rules_refuted :
  exists h i, rule_of (h ++ 58 :: i) (h, i) /\ spec_rules (mkSpec None (Some [(h, TString i)])) = Ok [(h, i)]
    /\ (forall rule, parse_rule rule <> Ok (h, i))
    /\ h = text "log<[0-9]:1,2>" /\ parse_rule (h ++ 58 :: i) = Ok (text "log<[0-9]", text "1,2>").
Proof.
  exists (text "log<[0-9]:1,2>"), (text "/{0}"). split; [constructor|]. split; [reflexivity|]. split; [|split; reflexivity].
  intros rule H. apply parse_no_colon in H as (H & _). apply H. cbn. tauto.
Qed.
Print Assumptions c79_map_rules_refuted.

(** C80, partial: build-image does the same with the options -m and with the spec
    that image-spec from makes of them, if the host patterns differ and -O is not
    used or an image path is given. Missing: the other cases. *)
Theorem c80_equivalent_spec_partial :
  forall O toml (mk : host -> list str -> config -> res herr O) pk cwd rules cfg o dry source image bytes sp p w,
  mapM parse_rule rules = Ok cfg -> NoDup (map fst cfg) -> spec_from (Some rules) o = Ok sp -> toml bytes = Some sp ->
  canonicalize (w_fs w) cwd (source_of cwd (by_spec dry source image)) = Ok p -> w_fs w p = Some HDir -> w_fs w (p ++ [text "xdvdfs.toml"]) = Some (HFile bytes) ->
  (o = None \/ image <> None) ->
  build_image toml mk pk cwd (by_spec dry source image) w = build_image toml mk pk cwd (by_options rules o dry source image) w.
Proof. exact (@c80_lemma). Qed.
Print Assumptions c80_equivalent_spec_partial.

(** A directory d with a, b and an empty spec file. *)
Definition c80_tree : ftree := FDir [(text "a", FFile [x68; x69]); (text "b", FFile [x78]); (text "xdvdfs.toml", FFile [])].
Definition c80_world : world := planted (text "d") c80_tree.
Definition c80_toml (rules : list str) (o : option str) (b : list byte) : option spec := match spec_from (Some rules) o with Ok s => Some s | _ => None end.
(** Overlays are just the rules, and an image holds "P". *)
Definition c80_run (toml : list byte -> option spec) (cwd : list str) (a : build_args) : world * res herr (option config) :=
  build_image toml (fun _ _ c => Ok c) (fun _ _ _ => ([x50], Ok tt)) cwd a c80_world.
Definition c80_rules : list str := [text "a:/x"; text "!b"].
Example c80_example :
  let r := c80_run (c80_toml c80_rules None) [] (by_spec false (Some (text "d")) None) in
  spec_from (Some c80_rules) None = Ok (mkSpec None (Some [(text "a", TString (text "/x")); (text "!b", TString [])]))
  /\ snd r = Ok None /\ w_fs (fst r) [text "d.xiso.iso"] = Some (HFile [x50])
  /\ snd (c80_run (c80_toml c80_rules None) [] (by_spec true (Some (text "d")) None)) = Ok (Some [(text "a", text "/x"); (text "!b", [])]).
Proof. vm_compute. auto. Qed.

(** Finding: -O has no effect on build-image; the image does not go where it goes
    with the spec. *)
Theorem c80_output_option_refuted :
  exists rules o, let toml := c80_toml rules (Some o) in
    let r1 := c80_run toml [] (by_spec false (Some (text "d")) None) in
    let r2 := c80_run toml [] (by_options rules (Some o) false (Some (text "d")) None) in
    o = text "out.iso" /\ snd r1 = Ok None /\ w_fs (fst r1) [text "d"; o] = Some (HFile [x50])
    /\ snd r2 = Ok None /\ w_fs (fst r2) [text "d"; o] = None /\ w_fs (fst r2) [text "d.xiso.iso"] = Some (HFile [x50]).
Proof. exists c80_rules, (text "out.iso"). vm_compute. ssplit; reflexivity. Qed.
Print Assumptions c80_output_option_refuted.
(** ... whatever it is. *)
Theorem c80_output_option_ignored_partial :
  forall O toml (mk : host -> list str -> config -> res herr O) pk cwd rules o dry source image,
  build_image toml mk pk cwd (by_options rules o dry source image) = build_image toml mk pk cwd (by_options rules None dry source image).
Proof. exact (fun O toml mk pk cwd rules o dry source image => eq_refl). Qed.
Print Assumptions c80_output_option_ignored_partial.

(** Finding: of two rules with the same pattern the first one counts on the command
    line, but the spec keeps only the second one, in the place of the first. *)
Theorem c80_repeated_pattern_refuted :
  exists rules, let toml := c80_toml rules None in
    snd (c80_run toml [] (by_options rules None true (Some (text "d")) None)) = Ok (Some [(text "a", text "/x"); (text "b", text "/b"); (text "a", text "/y")])
    /\ snd (c80_run toml [] (by_spec true (Some (text "d")) None)) = Ok (Some [(text "a", text "/y"); (text "b", text "/b")]).
Proof. exists [text "a:/x"; text "b:/b"; text "a:/y"]. vm_compute. auto. Qed.
Print Assumptions c80_repeated_pattern_refuted.

(** C81, partial: a successful run writes the image, and nothing else, to the image
    path, to the output field relative to the source directory, or beside that
    directory. Missing: a source directory given as "." or "/" without an output. *)
Theorem c81_image_path_partial :
  forall O toml (mk : host -> list str -> config -> res herr O) pk cwd a p output o w w',
  no_dotdot (source_of cwd a) -> canonicalize (w_fs w) cwd (source_of cwd a) = Ok p -> w_fs w p = Some HDir ->
  (pcomps (source_of cwd a) <> [] \/ b_image a <> None \/ output <> None) ->
  match b_spec a with Some f => no_dotdot f | None => True end ->
  output_field toml (w_fs w) a (match b_spec a with Some f => place cwd f | None => p ++ [text "xdvdfs.toml"] end) output ->
  image_goes_to cwd p (b_image a) output o -> build_image toml mk pk cwd a w = (w', Ok None) -> writes_only o (w_fs w) (w_fs w').
Proof. exact (@c81_dir). Qed.
Print Assumptions c81_image_path_partial.
(** ... if the source is a spec file in that directory. *)
Theorem c81_spec_file_partial :
  forall O toml (mk : host -> list str -> config -> res herr O) pk cwd a p f b output o w w', w_fs w [] = Some HDir -> w_fs w cwd = Some HDir ->
  no_dotdot (source_of cwd a) -> canonicalize (w_fs w) cwd (source_of cwd a) = Ok (p ++ [f]) -> w_fs w (p ++ [f]) = Some (HFile b) ->
  ((2 <= length (pcomps (source_of cwd a)))%nat \/ b_image a <> None \/ output <> None) -> b_spec a = None ->
  output_field toml (w_fs w) a (p ++ [f]) output ->
  image_goes_to cwd p (b_image a) output o -> build_image toml mk pk cwd a w = (w', Ok None) -> writes_only o (w_fs w) (w_fs w').
Proof. exact (@c81_file). Qed.
Print Assumptions c81_spec_file_partial.

Example c81_example :
  let r1 := c80_run (c80_toml c80_rules (Some (text "i.iso"))) [] (by_spec false (Some (text "d//xdvdfs.toml")) None) in
  let r2 := c80_run (c80_toml c80_rules (Some (text "/i.iso"))) [] (by_spec false (Some (text "./d/")) None) in
  let r3 := c80_run (c80_toml c80_rules None) [] (by_spec false (Some (text "./d/")) None) in
  let r4 := c80_run (c80_toml c80_rules None) [text "d"] (by_spec false None None) in
  snd r1 = Ok None /\ w_fs (fst r1) [text "d"; text "i.iso"] = Some (HFile [x50])
  /\ snd r2 = Ok None /\ w_fs (fst r2) [text "i.iso"] = Some (HFile [x50])
  /\ snd r3 = Ok None /\ w_fs (fst r3) [text "d.xiso.iso"] = Some (HFile [x50])
  /\ snd r4 = Ok None /\ w_fs (fst r4) [text "d.xiso.iso"] = Some (HFile [x50]).
Proof. vm_compute. ssplit; reflexivity. Qed.

(** Finding: build-image . fails unless the spec has an output field, while
    build-image without arguments packs the same directory. *)
Theorem c81_current_directory_refuted :
  exists cwd rules, let toml := c80_toml rules None in
    canonicalize (w_fs c80_world) cwd (text ".") = Ok cwd /\ w_fs c80_world cwd = Some HDir
    /\ snd (c80_run toml cwd (by_spec false (Some (text ".")) None)) = Err HIsADirectory
    /\ snd (c80_run toml cwd (by_spec false None None)) = Ok None.
Proof. exists [text "d"], c80_rules. vm_compute. ssplit; reflexivity. Qed.
Print Assumptions c81_current_directory_refuted.
(** Finding: build-image xdvdfs.toml fails in the directory of the spec, while
    build-image ./xdvdfs.toml works. *)
Theorem c81_spec_file_refuted :
  exists cwd rules, let toml := c80_toml rules (Some (text "i.iso")) in
    canonicalize (w_fs c80_world) cwd (text "xdvdfs.toml") = Ok (cwd ++ [text "xdvdfs.toml"])
    /\ snd (c80_run toml cwd (by_spec false (Some (text "xdvdfs.toml")) None)) = Err HNotFound
    /\ snd (c80_run toml cwd (by_spec false (Some (text "./xdvdfs.toml")) None)) = Ok None.
Proof. exists [text "d"], c80_rules. vm_compute. ssplit; reflexivity. Qed.
Print Assumptions c81_spec_file_refuted.

(** C82: at most one file changes, and it was no directory; a dry run changes
    nothing, and neither does a run whose overlay cannot be built. *)
Theorem c82_one_file :
  forall O toml (mk : host -> list str -> config -> res herr O) pk cwd a w w' r, build_image toml mk pk cwd a w = (w', r) -> exists o, changes_only o (w_fs w) (w_fs w').
Proof. exact (@c82_one). Qed.
Print Assumptions c82_one_file.
Theorem c82_dry_run :
  forall O toml (mk : host -> list str -> config -> res herr O) pk cwd a w, b_dry_run a = true -> fst (build_image toml mk pk cwd a w) = w.
Proof. exact (@c82_dry). Qed.
Print Assumptions c82_dry_run.
Theorem c82_overlay_first :
  forall O toml (mk : host -> list str -> config -> res herr O) pk cwd a w w' r, build_image toml mk pk cwd a w = (w', r) -> w_fs w' <> w_fs w ->
  exists h root rules o, h = w_fs w /\ rules <> [] /\ mk h root rules = Ok o.
Proof. exact (@c82_refused). Qed.
Print Assumptions c82_overlay_first.

Example c82_example :
  let r := build_image (fun _ => None) (fun _ _ _ => @Err herr unit HPack) (fun _ _ _ => ([], Ok tt)) [] (by_options c80_rules None false (Some (text "d")) (Some (text "d/a"))) c80_world in
  snd r = Err HPack /\ w_fs (fst r) [text "d"; text "a"] = Some (HFile [x68; x69]).
Proof. vm_compute. auto. Qed.

(** C83: a successful run leaves an image of what the rules make of the directory,
    if the image is outside of the directory or a new file. *)
Theorem c83_built_image :
  forall fuel m wax ls toml cwd rs cfg out s i w w' p t, mapM parse_rule rs = Ok cfg -> canonicalize (w_fs w) cwd s = Ok p -> hosts (w_fs w) ls p t -> is_fdir t = true -> proper t ->
  no_dotdot i -> (~ leads_to p (place cwd i) \/ w_fs w (place cwd i) = None) ->
  build_image toml (std_overlay fuel m wax ls) (std_overlay_packer fuel m ls) cwd (by_options rs out false (Some s) (Some i)) w = (w', Ok None) ->
  exists keys cl t' img, rules wax cfg keys /\ claims m keys (host_order [] t) cl /\ overlay_shows cl t'
   /\ w_fs w' (place cwd i) = Some (HFile img) /\ (forall q, q <> place cwd i -> w_fs w' q = w_fs w q) /\ packs m t' img.
Proof. exact c83_lemma. Qed.
Print Assumptions c83_built_image.

(** Patterns that match themselves only. *)
Definition c83_wax (pat : str) : option glob := Some (fun s => if str_eqb pat s then Some (fun i => if i =? 0 then Some s else None) else None).
Definition c83_ls : lister := planted_ls c80_tree.
Definition c83_run := build_image (fun _ => None) (std_overlay 10 Debug c83_wax c83_ls) (std_overlay_packer 10 Debug c83_ls) []
  (by_options [text "a:/X/{0}.txt"] None false (Some (text "d")) (Some (text "d/i"))) c80_world.
Definition c83_bytes (x : option hnode) : list byte := match x with Some (HFile b) => b | _ => [] end.
Definition c83_out : list byte := c83_bytes (w_fs (fst c83_run) [text "d"; text "i"]).
Example c83_example :
  snd c83_run = Ok None /\ hosts (w_fs c80_world) c83_ls [text "d"] c80_tree
  /\ (let* v := read_volume (file_dev c83_out) in let* e := walk_path 10 (file_dev c83_out) (v_root v) (text "/x/A.TXT") in
      read_data_all (file_dev c83_out) (d_dirent (e_node e))) = Ok [x68; x69].
Proof.
  split; [vm_compute; reflexivity|]. split; [apply planted_hosts; apply (source_b_ok c80_tree); vm_compute; reflexivity|vm_compute; reflexivity].
Qed.

(** C84, partial: an image outside of the source directory leaves it as it is. *)
Theorem c84_source_kept_partial :
  forall O toml (mk : host -> list str -> config -> res herr O) pk cwd a p output o w w',
  no_dotdot (source_of cwd a) -> canonicalize (w_fs w) cwd (source_of cwd a) = Ok p -> w_fs w p = Some HDir ->
  (pcomps (source_of cwd a) <> [] \/ b_image a <> None \/ output <> None) ->
  match b_spec a with Some f => no_dotdot f | None => True end ->
  output_field toml (w_fs w) a (match b_spec a with Some f => place cwd f | None => p ++ [text "xdvdfs.toml"] end) output ->
  image_goes_to cwd p (b_image a) output o -> ~ leads_to p o -> build_image toml mk pk cwd a w = (w', Ok None) -> untouched p (w_fs w) (w_fs w').
Proof.
  exact (fun O toml mk pk cwd a p output o w w' H1 H2 H3 H4 H5 H6 H7 Hn H8 q Hq =>
    proj2 (@c81_dir O toml mk pk cwd a p output o w w' H1 H2 H3 H4 H5 H6 H7 H8) q (fun E => Hn (eq_rect q (leads_to p) Hq o E))).
Qed.
Print Assumptions c84_source_kept_partial.

(** Finding: nothing keeps the image from replacing a file that it is made of, nor
    the spec. *)
Theorem c84_source_kept_refuted :
  exists rules image, let r := c80_run (fun _ => None) [] (by_options rules None false (Some (text "d")) (Some image)) in
    mapM parse_rule rules = Ok [(text "a", text "/x"); (text "!b", [])] /\ w_fs c80_world [text "d"; text "a"] = Some (HFile [x68; x69])
    /\ snd r = Ok None /\ w_fs (fst r) [text "d"; text "a"] = Some (HFile [x50]).
Proof. exists c80_rules, (text "d/a"). vm_compute. ssplit; reflexivity. Qed.
Print Assumptions c84_source_kept_refuted.

(** C110: a spec that is no TOML, or has a rule that is no string, is refused, and
    nothing changes. *)
Theorem c110_bad_spec :
  forall O toml (mk : host -> list str -> config -> res herr O) pk cwd a w p q b, b_map a = None ->
  canonicalize (w_fs w) cwd p = Ok q -> w_fs w q = Some (HFile b) -> (exists src, build_paths (w_fs w) cwd a = Ok (p, src)) ->
  (toml b = None \/ exists s rules k, toml b = Some s /\ s_rules s = Some rules /\ In (k, TOther) rules) ->
  fst (build_image toml mk pk cwd a w) = w /\ forall x, snd (build_image toml mk pk cwd a w) <> Ok x.
Proof. exact c110_lemma. Qed.
Print Assumptions c110_bad_spec.

Example c110_case :
  let good := c80_run (fun _ => Some (mkSpec None (Some [(text "a", TString (text "/x"))]))) [] (by_spec false (Some (text "d")) None) in
  let bad := c80_run (fun _ => Some (mkSpec None (Some [(text "a", TString (text "/x")); (text "b", TOther)]))) [] (by_spec false (Some (text "d")) None) in
  let worse := c80_run (fun _ => None) [] (by_spec false (Some (text "d")) None) in
  snd good = Ok None /\ snd bad = Err HRefused /\ snd worse = Err HRefused
  /\ (exists src, build_paths (w_fs c80_world) [] (by_spec false (Some (text "d")) None) = Ok (text "d/xdvdfs.toml", src)).
Proof. cbv zeta. ssplit; try (vm_compute; reflexivity). eexists. vm_compute. reflexivity. Qed.
