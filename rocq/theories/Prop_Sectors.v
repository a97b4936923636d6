(** Properties C119-C121: the scan of a table by sectors, and repacking and
    mounting, which use it, on images written by other programs; and more about C33. *)
From Verif Require Import M_Base M_Util M_Layout M_Avl M_Sector M_Dirtab M_Read M_Img M_Dev M_Trie M_Xfs M_Cli M_Fuse.
From Verif Require Import S_Avl S_Codec S_Table S_Read S_Img S_Dev S_Trie S_Xfs S_Check S_Cli S_Fuse S_Sectors.
From Verif Require Import P_Vm.
From Verif Require Import P_Base P_Witness P_Fuse P_Sectors P_Tidy P_Tidyfs.
From Coq Require Import Init.Byte Permutation Lia.
From Coq Require Import List.
Local Open Scope N_scope.

(** C119: the scan lists the records that lie one behind the other from the beginning
    of each sector, up to the first blank one. *)
Theorem c119_scan :
  forall d r x, lawful d -> real d ->
  (returns (fun fuel => scan_all fuel d r) x <-> scanned d (r_sector r) (table_sectors r) x).
Proof. exact (fun d r x HL HR => c119_lemma d HL HR r x). Qed.
Print Assumptions c119_scan.

(** C33: exactly when the scan panics. *)
Theorem c33_panics_exactly :
  forall d r p, lawful d -> calm d ->
  (returns (fun fuel => scan_all fuel d r) (Panic p) <->
   p = PAssert /\ exists k b, (k < table_sectors r)%nat /\ d (2048 * (r_sector r + N.of_nat k)) 2048 = Ok b /\ crosses b 0
     /\ forall j, (j < k)%nat -> exists b' es, d (2048 * (r_sector r + N.of_nat j)) 2048 = Ok b' /\ chain b' 0 es).
Proof. exact c33_exact. Qed.
Print Assumptions c33_panics_exactly.

(** The scan of [gap_img] ends at the blank record. *)
Example c119_example :
  exists es, scanned (file_dev gap_img) 33 1 (Ok es) /\ map name_str es = [[65]].
Proof. exact gap_scanned. Qed.

(** In [cross_img] the eighth record crosses the end of its sector. *)
Example c33_exact_example :
  exists b, file_dev cross_img 67584 2048 = Ok b /\ crosses b 0.
Proof.
  assert (H : returns (fun fuel => scan_all fuel (file_dev cross_img) root33) (Panic PAssert)) by (eexists; intros fuel Hf; apply (scan_panic_mono _ _ _ 10 fuel); [vm_compute; reflexivity|exact Hf]).
  apply c33_exact in H as (_ & [|k] & b & Hk & H1 & H2 & _); [exists b; auto|exfalso; vm_compute in Hk; lia|apply file_lawful|].
  intros o n. unfold file_dev. destruct (n =? 0); [eauto|]. destruct (_ <=? _); eauto.
Qed.

(** C120, partial: an image of any origin whose tables are tidy. Missing: other
    images, see below. *)
Theorem c120_repacking_keeps_everything_partial :
  forall file d v t m cp evs, open_image file = Ok d -> read_volume d = Ok v -> contains d t (v_root v) -> tidy d (v_root v) ->
  source t -> latin_tree t -> exact_copier d cp ->
  exists t' img evs' o, same_tree t t'
   /\ returns (fun fuel => repack fuel m file_wdev d cp ([], evs)) ((img, evs'), o)
   /\ (o = Ok tt /\ readable (file_dev img) t
       \/ ~ representable m t' /\ exists e, o = Err (InvalidFileStructureError e) /\ reason m t' e).
Proof. exact c120_partial_lemma. Qed.
Print Assumptions c120_repacking_keeps_everything_partial.

(** What this library packs is tidy. *)
Theorem c120_packed_images_are_tidy :
  forall m t img, source t -> packs m t img -> exists d v, opens_as img d (v_root v) t /\ tidy d (v_root v).
Proof. exact packed_opens_tidy. Qed.
Print Assumptions c120_packed_images_are_tidy.

(** A well-formed image with a gap between two records: the second file is lost, and
    success is reported. *)
Theorem c120_repacking_keeps_everything_refuted :
  exists img, is_image img (FDir [([65], FFile [x61]); ([66], FFile [x62])])
  /\ snd (repacked img) = Ok tt /\ names_in (fst (repacked img)) = Ok [[65]].
Proof. exact (ex_intro _ gap_img (conj gap_image c120_lost)). Qed.
Print Assumptions c120_repacking_keeps_everything_refuted.

(** A record that is not part of the tree any more comes back. *)
Theorem c120_repacking_adds_nothing_refuted :
  exists img, is_image img (FDir [([65], FFile [x61])])
  /\ snd (repacked img) = Ok tt /\ names_in (fst (repacked img)) = Ok [[65]; [66]].
Proof. exact (ex_intro _ stale_img (conj stale_image c120_back)). Qed.
Print Assumptions c120_repacking_adds_nothing_refuted.

Example c120_example : names_in gap_img = Ok [[65]; [66]] /\ names_in stale_img = Ok [[65]].
Proof. vm_all. Qed.

(** C121, partial: a mounted image of any origin whose tables are tidy. Missing: other
    images, see below. *)
Theorem c121_listing_is_the_directory_partial :
  forall img d r t fs segs ino fs' cs l fs2, opens_as img d r t -> tidy d r -> mounted img fs -> found_at fs segs ino fs' ->
  Forall component segs -> selected t segs (FDir cs) -> reads_dir ino fs' 0 l fs2 ->
  exists rest, map shown l = dots ++ rest /\ Permutation rest (map child_shown cs).
Proof. exact c121_partial_lemma. Qed.
Print Assumptions c121_listing_is_the_directory_partial.

(** A file that can be looked up is not listed. *)
Theorem c121_lists_all_refuted :
  exists img, is_image img (FDir [([65], FFile [x61]); ([66], FFile [x62])]) /\ mounted img (fresh img)
  /\ (exists l, snd (fuse_readdir 20 (fresh img) 1 0 (fun _ _ => false)) = Ok l /\ map rd_name l = [[46]; [46; 46]; [65]])
  /\ exists a, snd (fuse_lookup 20 (fresh img) 1 [66]) = Ok a.
Proof. exact (ex_intro _ gap_img (conj gap_image c121_gap)). Qed.
Print Assumptions c121_lists_all_refuted.

(** A file is listed that cannot be looked up. *)
Theorem c121_lists_only_refuted :
  exists img, is_image img (FDir [([65], FFile [x61])]) /\ mounted img (fresh img)
  /\ (exists l, snd (fuse_readdir 20 (fresh img) 1 0 (fun _ _ => false)) = Ok l /\ map rd_name l = [[46]; [46; 46]; [65]; [66]])
  /\ snd (fuse_lookup 20 (fresh img) 1 [66]) = Err EIO.
Proof. exact (ex_intro _ stale_img (conj stale_image c121_stale)). Qed.
Print Assumptions c121_lists_only_refuted.
