(** C42-C44 and C60-C65: the remapping overlay. *)
From Verif Require Import M_Base M_Util M_Layout M_Read M_Img M_Trie M_Remap S_Read S_Img S_Trie S_Remap.
From Verif Require Import P_Vm.
From Verif Require Import P_Base P_More P_Template P_Remap P_Overlay P_Dump.
From Coq Require Import Init.Byte.
Local Open Scope N_scope.

(** C42 *)
Theorem c42_rewrite_templates : forall m s,
  (forall l, template s l -> Forall (fun n => n < usize_modulus) l -> find_match_indices m s = Ok l)
  /\ match find_match_indices m s with
     | Ok l' => exists l, template s l /\ l' = map (fun n => n mod usize_modulus) l /\ (m = Debug -> l' = l)
     | Err (InvalidRewriteSubstitution i w k) =>
         w = s /\ (forall l, ~ template s l)
         /\ match k with
            | NonDigitCharacter => exists pre c post, s = pre ++ c :: post /\ i = len pre /\ ~ is_digit c /\ c <> 123 /\ c <> 125
            | UnclosedBrace => i = utf8_len s - 1
            end
     | Panic p => p = POverflow /\ m = Debug
         /\ exists pre body post, s = pre ++ 123 :: body ++ post /\ Forall (fun c => is_digit c \/ c = 123) body /\ usize_modulus <= written body
     | _ => False
     end.
Proof. exact c42_lemma. Qed.
Print Assumptions c42_rewrite_templates.

(** "a{1}}/{02}{1{2}", "{x}", "{1" *)
Example c42_example :
  find_match_indices Debug [97; 123; 49; 125; 125; 47; 123; 48; 50; 125; 123; 49; 123; 50; 125] = Ok [1; 2; 12]
  /\ template [97; 123; 49; 125; 125; 47; 123; 48; 50; 125; 123; 49; 123; 50; 125] [1; 2; 12]
  /\ find_match_indices Debug [123; 120; 125] = Err (InvalidRewriteSubstitution 1 [123; 120; 125] NonDigitCharacter)
  /\ find_match_indices Debug [233; 123; 49] = Err (InvalidRewriteSubstitution 3 [233; 123; 49] UnclosedBrace).
Proof.
  ssplit; try reflexivity. apply tp_char; [discriminate|].
  apply (tp_hole [49] [125; 47; 123; 48; 50; 125; 123; 49; 123; 50; 125] [2; 12]); [repeat (apply Forall_cons; [left; unfold is_digit; lia|]); constructor|].
  apply tp_char; [discriminate|]. apply tp_char; [discriminate|].
  apply (tp_hole [48; 50] [123; 49; 123; 50; 125] [12]); [repeat (apply Forall_cons; [left; unfold is_digit; lia|]); constructor|].
  apply (tp_hole [49; 123; 50] [] []); [|constructor].
  repeat (apply Forall_cons; [first [left; unfold is_digit; lia|right; reflexivity]|]). constructor.
Qed.

(** C60: with captures that have no opening brace. *)
Theorem c60_placeholders_are_replaced_partial : forall m caps l,
  Forall (fun i => match i with Lit c => c <> 123 | Hole n => n < usize_modulus /\ Forall (fun c => c <> 123) (filled caps [Hole n]) end) l ->
  exists idxs, find_match_indices m (show l) = Ok idxs /\ substitute caps (show l) idxs = filled caps l.
Proof. exact c60_lemma. Qed.
Print Assumptions c60_placeholders_are_replaced_partial.

(** A file name with braces is taken for a placeholder: "{1}-{2}" with "{2}" and "x". *)
Theorem c60_placeholders_are_replaced_refuted : exists caps l idxs,
  find_match_indices Release (show l) = Ok idxs /\ substitute caps (show l) idxs <> filled caps l.
Proof.
  exists (fun n => if n =? 1 then Some [123; 50; 125] else if n =? 2 then Some [120] else None), [Hole 1; Lit 45; Hole 2], [1; 2].
  split; [reflexivity|]. vm_compute. discriminate.
Qed.
Print Assumptions c60_placeholders_are_replaced_refuted.

(** "{1}/b{10}" with "x" and nothing; "{01}" is accepted but stays. *)
Example c60_example :
  show [Hole 1; Lit 47; Lit 98; Hole 10] = [123; 49; 125; 47; 98; 123; 49; 48; 125]
  /\ substitute (fun n => if n =? 1 then Some [120] else None) [123; 49; 125; 47; 98; 123; 49; 48; 125] [1; 10] = [120; 47; 98]
  /\ find_match_indices Release [123; 48; 49; 125] = Ok [1]
  /\ substitute (fun n => Some [120]) [123; 48; 49; 125] [1] = [123; 48; 49; 125].
Proof. ssplit; reflexivity. Qed.

(** C61: the template {0}, which stands for the whole matched path. *)
Theorem c61_whole_match_keeps_the_path_partial : forall m caps (p : path),
  p <> [] -> Forall (fun s => s <> [] /\ forall c, In c s -> c <> 47) p -> (forall s, hd [] p <> 46 :: s) ->
  caps 0 = Some (candidate p) -> rewrite_path m caps (placeholder 0) [] = Ok p.
Proof. exact c61_lemma. Qed.
Print Assumptions c61_whole_match_keeps_the_path_partial.

(** ".hid" becomes "hid". *)
Theorem c61_whole_match_keeps_the_path_refuted : exists caps (p : path),
  p <> [] /\ Forall (fun s => s <> [] /\ forall c, In c s -> c <> 47) p /\ caps 0 = Some (candidate p)
  /\ rewrite_path Release caps (placeholder 0) [] = Ok [[104; 105; 100]] /\ p <> [[104; 105; 100]].
Proof.
  exists (fun _ => Some [46; 104; 105; 100]), [[46; 104; 105; 100]]. ssplit; try discriminate; try reflexivity.
  repeat constructor; try discriminate. intros c Hc. cbn in Hc. repeat destruct Hc as [<-|Hc]; try discriminate. destruct Hc.
Qed.
Print Assumptions c61_whole_match_keeps_the_path_refuted.

Example c61_example : rewrite_path Release (fun _ => Some [97; 47; 98]) (placeholder 0) [] = Ok [[97]; [98]].
Proof. reflexivity. Qed.

(** C62 *)
Theorem c62_which_rule_decides : forall m keys prefix suffix o, rewritten m keys prefix suffix = Ok o ->
  match o with
  | Some p => exists to caps, selects keys (candidate prefix) to caps /\ rewrite_path m caps to suffix = Ok p
  | None => forall to caps, ~ selects keys (candidate prefix) to caps
  end.
Proof. exact rewritten_spec. Qed.
Print Assumptions c62_which_rule_decides.

Theorem c62_one_rule_decides : forall m keys l cl cl', claims m keys l cl -> claims m keys l cl' -> cl = cl'.
Proof. exact claims_fun. Qed.
Print Assumptions c62_one_rule_decides.

(** A glob language for examples: "*" matches everything, other patterns match
    literally. *)
Definition ex_wax (pat : str) : option glob :=
  Some (fun s => if str_eqb pat [42] || str_eqb pat s then Some (fun i => if i =? 0 then Some s else None) else None).
Definition ex_keys (cfg : config) : list ((str * str) * glob) := map (fun r => (r, match ex_wax (trim_start_c 33 (fst r)) with Some g => g | None => fun _ => None end)) cfg.

(** "*" to "x", "!a", "a" to "y", "*" to "z": "a" goes to "y", "b" to "x" *)
Definition c62_rules : config := [([42], [120]); ([33; 97], []); ([97], [121]); ([42], [122])].
Example c62_example :
  rewritten Debug (ex_keys c62_rules) [[97]] [] = Ok (Some [[121]])
  /\ rewritten Debug (ex_keys c62_rules) [[98]] [] = Ok (Some [[120]])
  /\ rewritten Debug (ex_keys [([42], [120]); ([33; 97], [])]) [[97]] [] = Ok None.
Proof. vm_all. Qed.

(** C43 *)
Theorem c43_overlay_shows_the_claims : forall fuel m wax (fs : fsys (list byte)) cfg t tr,
  is_fdir t = true -> proper t -> presents fs t -> remap_new fuel m wax fs cfg = Ok tr ->
  exists keys cl t', rules wax cfg keys /\ claims m keys (host_order [] t) cl /\ overlay_shows cl t'
   /\ presents (overlay tr fs) t' /\ (copies fs t -> copies (overlay tr fs) t').
Proof. exact c43_lemma. Qed.
Print Assumptions c43_overlay_shows_the_claims.

(** C63 *)
Theorem c63_packing_an_overlay : forall fuel m wax (fs : fsys (list byte)) cfg t tr,
  is_fdir t = true -> proper t -> presents fs t -> copies fs t -> remap_new fuel m wax fs cfg = Ok tr ->
  exists keys cl t', rules wax cfg keys /\ claims m keys (host_order [] t) cl /\ overlay_shows cl t'
   /\ (small t' -> forall fuel' evs evs' img, create_xdvdfs_image fuel' m file_wdev (overlay tr fs) ([], evs) = ((img, evs'), Ok tt) ->
       readable (file_dev img) t').
Proof. exact c63_lemma. Qed.
Print Assumptions c63_packing_an_overlay.

(** bin/a, bin/b, c with the rules "bin" to "/out/", "!bin/b", "c" to "x/{0}" *)
Definition c43_tree : ftree := FDir [([98; 105; 110], FDir [([97], FFile [x68; x69]); ([98], FFile [x2a])]); ([99], FFile [x63; x63; x63])].
Definition c43_cfg : config := [([98; 105; 110], [47; 111; 117; 116; 47]); ([33; 98; 105; 110; 47; 98], []); ([99], [120; 47; 123; 48; 125])].
Notation c43_trie := (match remap_new 5 Debug ex_wax (std_fs c43_tree) c43_cfg with Ok t => t | _ => trie_default end).
Example c43_example :
  (match remap_new 5 Debug ex_wax (std_fs c43_tree) c43_cfg with Ok _ => true | _ => false end) = true
  /\ read_dir (overlay c43_trie (std_fs c43_tree)) [] = Ok [mkFentry [120] TDirectory 0; mkFentry [111; 117; 116] TDirectory 0]
  /\ read_dir (overlay c43_trie (std_fs c43_tree)) [[111; 117; 116]] = Ok [mkFentry [97] TFile 2]
  /\ read_dir (overlay c43_trie (std_fs c43_tree)) [[120]] = Ok [mkFentry [99] TFile 3]
  /\ copy_in (overlay c43_trie (std_fs c43_tree)) [[120]; [99]] [] 0 0 3 = ([x63; x63; x63], Ok 3)
  /\ dump 5 c43_trie = Ok [([[98; 105; 110]], [[111; 117; 116]]); ([[98; 105; 110]; [97]], [[111; 117; 116]; [97]]); ([[99]], [[120]; [99]])]
  /\ snd (create_xdvdfs_image 5 Debug file_wdev (overlay c43_trie (std_fs c43_tree)) ([], [])) = Ok tt.
Proof. vm_all. Qed.

(** C44: a mapped file is listed if nothing else is mapped to its image path or
    through it, and no file is mapped to one of the directories above it. *)
Theorem c44_mapped_files_are_listed_partial : forall cl t' h b r, overlay_shows cl t' -> In (h, FFile b, r) cl -> r <> [] ->
  (forall c x, In c cl -> snd c = r ++ x -> c = (h, FFile b, r)) ->
  (forall h' b' r' x, In (h', FFile b', r') cl -> r' ++ x = r -> r' <> [] -> x = []) ->
  at_path t' r (FFile b).
Proof. exact c44_lemma. Qed.
Print Assumptions c44_mapped_files_are_listed_partial.

(** C44, exactly: a mapped file is what is listed at its image path iff no earlier
    entry was mapped to this path or through it, and every file that was mapped to a
    directory above it came after something that was mapped through that directory. *)
Theorem c44_listed_exactly : forall cl t' h b r l1 l2, overlay_shows cl t' -> cl = l1 ++ (h, FFile b, r) :: l2 -> ~ In (h, FFile b, r) l1 -> r <> [] ->
  ((at_path t' r (FFile b) /\ claimant r cl = Some (h, FFile b, r))
   <-> (forall c x, In c l1 -> snd c <> r ++ x)
       /\ (forall a x h' b' m1 m2, r = a ++ x -> a <> [] -> x <> [] -> cl = m1 ++ (h', FFile b', a) :: m2 -> exists c y, In c m1 /\ snd c = a ++ y)).
Proof. exact c44_exact_lemma. Qed.
Print Assumptions c44_listed_exactly.

(** a goes to "x/z", b to "x", and c to "x/y": c is listed although b was mapped to
    the directory above it, since b is lost. *)
Definition c44_claims : list claim := [([[97]], FFile [x68; x69], [[120]; [122]]); ([[98]], FFile [x62], [[120]]); ([[99]], FFile [x2a], [[120]; [121]])].
Notation c44_trie := (match remap_new 5 Debug ex_wax (std_fs (FDir (map (fun c => (last (fst (fst c)) [], snd (fst c))) c44_claims)))
  [([97], [120; 47; 122]); ([98], [120]); ([99], [120; 47; 121])] with Ok t => t | _ => trie_default end).
Example c44_exactly_example : (forall t', overlay_shows c44_claims t' -> at_path t' [[120]; [121]] (FFile [x2a]))
  /\ dump 5 c44_trie = Ok [([[97]], [[120]; [122]]); ([[99]], [[120]; [121]])].
Proof.
  split; [|vm_compute; reflexivity]. intros t' H.
  apply (proj2 (c44_listed_exactly c44_claims t' [[99]] [x2a] [[120]; [121]] (firstn 2 c44_claims) [] H eq_refl ltac:(intros [E|[E|[]]]; discriminate E) ltac:(discriminate))).
  split.
  - intros c x [<-|[<-|[]]]; cbn; discriminate.
  - intros a x h' b' m1 m2 Er Ha Hx Em.
    assert (A : a = [[120]]).
    { destruct a as [|u a]; [contradiction|]. injection Er as <- Er. destruct a as [|v a]; [reflexivity|]. injection Er as <- Er. destruct a, x; try discriminate Er. contradiction. }
    subst a. destruct m1 as [|c m1]; [discriminate Em|]. injection Em as <- Em. exists ([[97]], FFile [x68; x69], [[120]; [122]]), [[122]]. split; [left|]; reflexivity.
Qed.

(** a goes to "x" and b to "x/y": packing the overlay succeeds, and the image has
    the file x only. *)
Definition c44_tree : ftree := FDir [([97], FFile [x68; x69]); ([98], FFile [x2a])].
Definition c44_cfg : config := [([97], [120]); ([98], [120; 47; 121])].
Theorem c44_mapped_files_are_listed_refuted : exists (wax : str -> option glob) (cfg : config) (t : ftree) (tr : trie mapent) (img : list byte) (keys : list ((str * str) * glob)),
  remap_new 5 Release wax (std_fs t) cfg = Ok tr /\ compile wax cfg = Ok keys
  /\ rewritten Release keys [[97]] [] = Ok (Some [[120]]) /\ rewritten Release keys [[98]] [] = Ok (Some [[120]; [121]])
  /\ read_dir (overlay tr (std_fs t)) [] = Ok [mkFentry [120] TFile 2]
  /\ create_xdvdfs_image 5 Release file_wdev (overlay tr (std_fs t)) ([], []) = ((img, snd (fst (create_xdvdfs_image 5 Release file_wdev (overlay tr (std_fs t)) ([], [])))), Ok tt)
  /\ (let* v := read_volume (file_dev img) in walk_path 10 (file_dev img) (v_root v) [120; 47; 121]) = Err IsNotDirectory.
Proof.
  exists ex_wax, c44_cfg, c44_tree, (match remap_new 5 Release ex_wax (std_fs c44_tree) c44_cfg with Ok t => t | _ => trie_default end).
  exists (fst (fst (create_xdvdfs_image 5 Release file_wdev (overlay (match remap_new 5 Release ex_wax (std_fs c44_tree) c44_cfg with Ok t => t | _ => trie_default end) (std_fs c44_tree)) ([], [])))), (ex_keys c44_cfg).
  assert (H : snd (create_xdvdfs_image 5 Release file_wdev (overlay (match remap_new 5 Release ex_wax (std_fs c44_tree) c44_cfg with Ok t => t | _ => trie_default end) (std_fs c44_tree)) ([], [])) = Ok tt) by (vm_compute; reflexivity).
  split; [|split; [|split; [|split; [|split; [|split]]]]].
  - assert (E : (match remap_new 5 Release ex_wax (std_fs c44_tree) c44_cfg with Ok _ => true | _ => false end) = true) by (vm_compute; reflexivity).
    destruct (remap_new 5 Release ex_wax (std_fs c44_tree) c44_cfg); [reflexivity|discriminate..].
  - reflexivity.
  - vm_compute. reflexivity.
  - vm_compute. reflexivity.
  - vm_compute. reflexivity.
  - rewrite <- H. destruct (create_xdvdfs_image 5 Release file_wdev _ ([], [])) as [[i ev] r]. reflexivity.
  - vm_compute. reflexivity.
Qed.
Print Assumptions c44_mapped_files_are_listed_refuted.

(** C64 *)
Theorem c64_building_an_overlay_partial : forall m wax (fs : fsys (list byte)) cfg t, is_fdir t = true -> presents fs t ->
  exists n, forall fuel, (n <= fuel)%nat ->
  match remap_new fuel m wax fs cfg with
  | Ok _ => True
  | Err GlobBuildingError => exists from to, In (from, to) cfg /\ wax (trim_start_c 33 from) = None
  | Err (InvalidRewriteSubstitution _ to _) => (exists from, In (from, to) cfg) /\ forall l, ~ template to l
  | Err (FilesystemError _) => False
  | Panic p => (exists keys h s r, rules wax cfg keys /\ at_path t h s /\ maps_to m keys h r /\ ~ latin_path r)
               \/ m = Debug /\ p = POverflow /\ exists from to, In (from, to) cfg /\ huge_index to
  | OutOfFuel => False
  end.
Proof. exact c64_lemma. Qed.
Print Assumptions c64_building_an_overlay_partial.

(** A host file named U+0100 with the rule "*" to "{0}". *)
Theorem c64_building_an_overlay_refuted : exists wax cfg t, proper t /\ is_fdir t = true
  /\ remap_new 5 Release wax (std_fs t) cfg = Panic PIndex.
Proof.
  exists ex_wax, [([42], [123; 48; 125])], (FDir [([256], FFile [])]). split; [|split; [reflexivity|vm_compute; reflexivity]].
  apply every_dir_node; [repeat constructor; intros []|]. repeat constructor. intros p cs H. inversion H.
Qed.
Print Assumptions c64_building_an_overlay_refuted.

Example c64_example : remap_new 5 Release ex_wax (std_fs c44_tree) [([97], [123; 120])] = Err (InvalidRewriteSubstitution 1 [123; 120] NonDigitCharacter).
Proof. vm_compute. reflexivity. Qed.

(** C65 *)
Theorem c65_dump_reports_the_mapping : forall fuel m wax (fs : fsys (list byte)) cfg t tr,
  is_fdir t = true -> proper t -> presents fs t -> remap_new fuel m wax fs cfg = Ok tr ->
  exists keys cl k, rules wax cfg keys /\ claims m keys (host_order [] t) cl
   /\ forall fuel', (k <= fuel')%nat -> exists out, dump fuel' tr = Ok out
   /\ forall h q, In (h, q) out <-> q <> [] /\ open_to cl q /\ exists s, claimant q cl = Some (h, s, q).
Proof. exact c65_lemma. Qed.
Print Assumptions c65_dump_reports_the_mapping.

Example c65_example : dump 5 c43_trie = Ok [([[98; 105; 110]], [[111; 117; 116]]); ([[98; 105; 110]; [97]], [[111; 117; 116]; [97]]); ([[99]], [[120]; [99]])].
Proof. vm_compute. reflexivity. Qed.
