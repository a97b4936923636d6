(** Property C171: overlays of directories that contain anything. *)
From Verif Require Import M_Base M_Util M_Layout M_Read M_Img M_Trie M_Remap M_Cli M_Special.
From Verif Require Import S_Read S_Img S_Remap S_Special S_Mixed.
From Verif Require Import P_Vm P_Mixed.
From Coq Require Import Init.Byte Strings.String.
From Coq Require Import List.
Local Close Scope string_scope.
Local Open Scope N_scope.

(** C171: a directory consists of files and directories with proper names, or it is one
    that cannot be listed somewhere. *)
Theorem c171_listing : forall t, (unlistable t -> ~ exists f, listable t f) /\ (~ unlistable t -> exists f, listable t f).
Proof. exact c171_listing_lemma. Qed.
Print Assumptions c171_listing.

(** In the first case the overlay is the one of the tree, and if its files can be opened
    the image is, too. *)
Theorem c171_listable_partial :
  forall t f, listable t f ->
  (forall fuel m wax cfg, remap_new fuel m wax (raw_fs t) cfg = remap_new fuel m wax (std_fs f) cfg)
  /\ forall tr, (forall p, read_dir (overlay tr (raw_fs t)) p = read_dir (overlay tr (std_fs f)) p)
     /\ (openable t tr -> forall fuel m W s, create_xdvdfs_image fuel m W (overlay tr (raw_fs t)) s = create_xdvdfs_image fuel m W (overlay tr (std_fs f)) s).
Proof. exact c171_listable_lemma. Qed.
Print Assumptions c171_listable_partial.
(** A file of the overlay that cannot be opened makes packing fail. *)
Theorem c171_sealed :
  forall fuel m (W : wdev (list byte)) t t' tr p b e n s, source t' -> presents (overlay tr (raw_fs t)) t' -> at_path t' p (FFile b) ->
  trie_get tr p = @Ok ioerr _ (Some e) -> lookup_raw (m_host_path e) t = Some (RSealed n) -> snd (create_xdvdfs_image fuel m W (overlay tr (raw_fs t)) s) <> Ok tt.
Proof. exact c171_sealed_lemma. Qed.
Print Assumptions c171_sealed.

(** In the second case there is no overlay, whatever the rules: an error is reported. *)
Theorem c171_special :
  forall m wax t cfg keys, raw_proper t -> unlistable t -> rules wax cfg keys ->
  exists e, returns (fun fuel => remap_new fuel m wax (raw_fs t) cfg) (Err (FilesystemError e)).
Proof. exact c171_special_lemma. Qed.
Print Assumptions c171_special.
Theorem c171_success :
  forall fuel m wax t cfg tr, raw_proper t -> remap_new fuel m wax (raw_fs t) cfg = Ok tr -> ~ unlistable t.
Proof. exact c171_success_lemma. Qed.
Print Assumptions c171_success.

(** Globs that match literally. *)
Definition c171_wax (pat : str) : option glob := Some (fun s => if str_eqb pat s then Some (fun _ => None) else None).
Definition c171_cfg : config := [(text "a", text "b")].
Definition c171_keys : list ((str * str) * glob) := [((text "a", text "b"), fun s => if str_eqb (text "a") s then Some (fun _ => None) else None)].
Definition c171_dir (more : list (option str * raw)) : raw := RDir ((Some (text "a"), RFile [x68; x69]) :: more).
Definition c171_new (more : list (option str * raw)) : res rmerr (trie mapent) := remap_new 5 Debug c171_wax (raw_fs (c171_dir more)) c171_cfg.
Definition c171_pack (more : list (option str * raw)) : res (res rmerr unit) (res werr unit) :=
  match c171_new more with
  | Ok tr => Ok (snd (create_xdvdfs_image 5 Debug file_wdev (overlay tr (raw_fs (c171_dir more))) ([], [])))
  | Err e => Err (Err e) | Panic p => Panic p | OutOfFuel => OutOfFuel
  end.
Example c171_example :
  c171_pack [] = Ok (Ok tt) /\ c171_pack [(Some (text "sealed"), RSealed 5)] = Ok (Ok tt)
  /\ c171_pack [(Some (text "link"), ROther)] = Err (Err (FilesystemError UNSUPPORTED))
  /\ c171_pack [(Some (text "d"), RDir [(None, RFile [])])] = Err (Err (FilesystemError UNSUPPORTED))
  /\ c171_pack [(Some (text "d"), RLocked)] = Err (Err (FilesystemError PERMISSION_DENIED)).
Proof. vm_all. Qed.
(** Excluding the link by a rule does not help. *)
Example c171_negated :
  remap_new 5 Debug c171_wax (raw_fs (c171_dir [(Some (text "link"), ROther)])) (c171_cfg ++ [(text "!link", [])]) = Err (FilesystemError UNSUPPORTED).
Proof. vm_compute. reflexivity. Qed.
Example c171_rules : rules c171_wax c171_cfg c171_keys.
Proof. constructor; [split; reflexivity|constructor]. Qed.
Example c171_unlistable : unlistable (c171_dir [(Some (text "link"), ROther)]).
Proof. eapply ul_below; [right; left; reflexivity|constructor]. Qed.

(** What no rule selects does matter: a symbolic link beside the only file that is
    mapped. *)
Theorem c171_only_selected_files_matter_refuted :
  exists wax cfg keys cs n x, rules wax cfg keys /\ unmatched keys n
  /\ (exists tr, remap_new 5 Debug wax (raw_fs (RDir cs)) cfg = Ok tr) /\ remap_new 5 Debug wax (raw_fs (RDir (cs ++ [(Some n, x)]))) cfg = Err (FilesystemError UNSUPPORTED).
Proof.
  exists c171_wax, c171_cfg, c171_keys, [(Some (text "a"), RFile [x68; x69])], (text "link"), ROther.
  split; [exact c171_rules|]. split; [intros k [<-|[]]; reflexivity|]. split; [|vm_compute; reflexivity].
  assert (E : (match c171_new [] with Ok _ => true | _ => false end) = true) by (vm_compute; reflexivity).
  unfold c171_new, c171_dir in E. destruct (remap_new _ _ _ _ _) as [tr| | |]; try discriminate. exists tr. reflexivity.
Qed.
Print Assumptions c171_only_selected_files_matter_refuted.
