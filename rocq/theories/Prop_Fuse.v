(** Properties C52-C54, C74-C76 and C101: the FUSE file system (xdvdfs-fsd). [mounted img fs]:
    the image was mounted and has answered any number of requests;
    [found_at fs segs ino fs']: the number [ino] was handed out for the path [segs].  *)
From Verif Require Import M_Base M_Util M_Layout M_Read M_Img M_Check M_Remap M_Cli M_Fuse.
From Verif Require Import S_Avl S_Codec S_Read S_Img S_Check S_Cli S_Fuse.
From Verif Require Import P_Vm.
From Verif Require Import P_Base P_Witness P_More P_Src P_Check P_Cli P_Fuse P_Extra.
From Coq Require Import Init.Byte Permutation Strings.String.
From Coq Require Import List.
Local Close Scope string_scope.
Local Open Scope N_scope.

(** a/x (empty), b/x (empty), f (3 bytes). *)
Definition c52_tree : ftree :=
  FDir [(text "a", FDir [(text "x", FFile [])]); (text "b", FDir [(text "x", FFile [])]); (text "f", FFile [x01; x02; x03])].
Definition c52_run := create_xdvdfs_image 10 Debug file_wdev (std_fs c52_tree) ([], []).
Definition c52_img : list byte := fst (fst c52_run).
Definition big : list rdent -> rdent -> bool := fun _ _ => false.
Definition two : list rdent -> rdent -> bool := fun l _ => (2 <=? len l).
Definition c52_start : mount := fresh c52_img.
Definition c74_state : mount := after_lookup c52_start 1 (text "f").
Definition c54_state : mount := after_readdir c52_start 1 0 big.
(** The computations of the examples below, at once. *)
Example c52_facts :
  snd (fuse_readdir 20 c52_start 1 0 big)
    = Ok [mkRdent 1 1 true (text "."); mkRdent 1 2 true (text ".."); mkRdent 2 3 true (text "b"); mkRdent 3 4 true (text "a"); mkRdent 4 5 false (text "f")]
  /\ snd (fuse_lookup 20 c54_state 1 (text "f")) = Ok (mkAttr 5 3 1 false)
  /\ snd (fuse_lookup 20 c52_start 1 (text "f")) = Ok (mkAttr 2 3 1 false)
  /\ fuse_getattr c74_state 2 = Ok (mkAttr 2 3 1 false) /\ fuse_read c74_state 2 1 2 = Ok [x02; x03]
  /\ fuse_read c74_state 2 1 3 = Ok [x02; x03; x00] /\ fuse_read c74_state 2 3 4096 = Err EIO
  /\ snd (fuse_lookup 20 c52_start 1 (text "q")) = Err EIO.
Proof. vm_all. Qed.
Example c52_source : source c52_tree /\ packs Debug c52_tree c52_img /\ mounted c52_img c52_start /\ roomy big /\ roomy two.
Proof.
  assert (S : source c52_tree) by (apply source_b_ok; vm_compute; reflexivity). split; [exact S|].
  split; [apply (std_packs Debug c52_tree 10 []); [exact S|vm_compute; reflexivity]|].
  split; [apply fresh_mounted; vm_compute; reflexivity|]. split; intros l x H; [reflexivity|]. apply N.leb_gt. change 2 with (N.succ 1). apply N.lt_succ_r. exact H.
Qed.

(** C52: a lookup is answered in the same way at any later time. *)
Theorem c52_lookups_stable :
  forall img fs parent name fuel fs1 a fs2 fuel' fs3 a', mounted img fs ->
  fuse_lookup fuel fs parent name = (fs1, Ok a) -> requests fs1 fs2 -> fuse_lookup fuel' fs2 parent name = (fs3, Ok a') ->
  a' = a.
Proof. exact c52_same. Qed.
Print Assumptions c52_lookups_stable.

(** Numbers returned by lookup are equal exactly when the same directory entry, at
    the same place of the image, was found; none of them is the root's. *)
Theorem c52_lookups_unique :
  forall img fs parent name fuel fs1 a fs2 parent' name' fuel' fs3 a', mounted img fs ->
  fuse_lookup fuel fs parent name = (fs1, Ok a) -> requests fs1 fs2 -> fuse_lookup fuel' fs2 parent' name' = (fs3, Ok a') ->
  exists r r' e e', dirtab_by_inode fs parent = Some r /\ walk_path fuel (m_dev fs) r name = Ok e
   /\ dirtab_by_inode fs2 parent' = Some r' /\ walk_path fuel' (m_dev fs) r' name' = Ok e'
   /\ a_ino a <> 1 /\ (a_ino a = a_ino a' <-> e = e').
Proof. exact c52_distinct. Qed.
Print Assumptions c52_lookups_unique.

Example c52_example :
  snd (fuse_lookup 20 c52_start 1 (text "B")) = Ok (mkAttr 2 2048 1 true)
  /\ snd (fuse_lookup 20 (after_readdir (after_lookup c52_start 1 (text "b")) 1 0 big) 1 (text "b")) = Ok (mkAttr 2 2048 1 true)
  /\ snd (fuse_lookup 20 (after_lookup c52_start 1 (text "b")) 1 (text "f")) = Ok (mkAttr 3 3 1 false).
Proof. vm_all. Qed.

(** The numbers of directory listings are not unique: a/x and b/x are two files, and
    lookup knows them apart. *)
Theorem c52_listed_numbers_refuted :
  exists t img fs a b fs1 fs2 l fs3 l' fs4 x y ax fs5 bx fs6, is_image img t /\ mounted img fs
  /\ fuse_lookup 20 fs 1 (text "a") = (fs1, Ok a) /\ fuse_lookup 20 fs1 1 (text "b") = (fs2, Ok b)
  /\ fuse_readdir 20 fs2 (a_ino a) 0 big = (fs3, Ok l) /\ fuse_readdir 20 fs3 (a_ino b) 0 big = (fs4, Ok l')
  /\ In x l /\ In y l' /\ rd_name x = text "x" /\ rd_name y = text "x" /\ rd_ino x = rd_ino y
  /\ fuse_lookup 20 fs4 (a_ino a) (text "x") = (fs5, Ok ax) /\ fuse_lookup 20 fs5 (a_ino b) (text "x") = (fs6, Ok bx) /\ a_ino ax <> a_ino bx.
Proof.
  assert (M : mounted twin_img (fresh twin_img)) by (apply fresh_mounted; vm_compute; reflexivity).
  exists twin_tree, twin_img, (fresh twin_img), (mkAttr 2 2048 1 true), (mkAttr 3 2048 1 true).
  pose (f1 := after_lookup (fresh twin_img) 1 (text "a")). pose (f2 := after_lookup f1 1 (text "b")).
  pose (f3 := after_readdir f2 2 0 big). pose (f4 := after_readdir f3 3 0 big). pose (f5 := after_lookup f4 2 (text "x")). exists f1, f2.
  exists [mkRdent 2 1 true (text "."); mkRdent 2 2 true (text ".."); mkRdent 4 3 false (text "x")], f3.
  exists [mkRdent 3 1 true (text "."); mkRdent 3 2 true (text ".."); mkRdent 4 3 false (text "x")], f4.
  exists (mkRdent 4 3 false (text "x")), (mkRdent 4 3 false (text "x")), (mkAttr 5 0 0 false), f5, (mkAttr 6 0 0 false), (after_lookup f5 3 (text "x")).
  ssplit; [exists twin_dev, root33; exact twin_opens|exact M| | | | | | |reflexivity|reflexivity|reflexivity| | | ].
  - apply run_lookup. vm_compute. reflexivity.
  - apply run_lookup. vm_compute. reflexivity.
  - apply run_readdir. vm_compute. reflexivity.
  - apply run_readdir. vm_compute. reflexivity.
  - right. right. left. reflexivity.
  - right. right. left. reflexivity.
  - apply run_lookup. vm_compute. reflexivity.
  - apply run_lookup. vm_compute. reflexivity.
  - discriminate.
Qed.
Print Assumptions c52_listed_numbers_refuted.

(** C53: reading a directory page by page, continuing after the last record
    received, returns ".", ".." and then every entry, each of them once and in the
    order of the scan, whatever the sizes of the pages and the requests in between. *)
Theorem c53_pages :
  forall img fs ino r es fuel l fs', mounted img fs -> dirtab_by_inode fs ino = Some r ->
  scan_all fuel (m_dev fs) r = Ok es -> reads_dir ino fs 0 l fs' -> map shown l = dots ++ map entry_shown es.
Proof. exact c53_lemma. Qed.
Print Assumptions c53_pages.

(** ... which are the children of the directory, on images written by this library. *)
Theorem c53_packed_pages :
  forall m t img fs segs ino fs' cs l fs2, source t -> packs m t img -> mounted img fs -> found_at fs segs ino fs' ->
  Forall component segs -> selected t segs (FDir cs) -> reads_dir ino fs' 0 l fs2 ->
  exists rest, map shown l = dots ++ rest /\ Permutation rest (map child_shown cs).
Proof. exact c53_packed. Qed.
Print Assumptions c53_packed_pages.

Theorem c53_requests_answered :
  forall m t img fs segs ino fs' cs offset full, source t -> packs m t img -> mounted img fs -> found_at fs segs ino fs' ->
  Forall component segs -> selected t segs (FDir cs) -> roomy full ->
  exists n, forall fuel, (n <= fuel)%nat -> exists fs2 l, fuse_readdir fuel fs' ino offset full = (fs2, Ok l).
Proof. exact c53_answers. Qed.
Print Assumptions c53_requests_answered.

Example c53_example :
  snd (fuse_readdir 20 c52_start 1 0 two) = Ok [mkRdent 1 1 true (text "."); mkRdent 1 2 true (text "..")]
  /\ snd (fuse_readdir 20 c52_start 1 2 two) = Ok [mkRdent 2 3 true (text "b"); mkRdent 3 4 true (text "a")]
  /\ snd (fuse_readdir 20 c52_start 1 4 two) = Ok [mkRdent 2 5 false (text "f")]
  /\ snd (fuse_readdir 20 c52_start 1 5 two) = Ok [].
Proof. vm_all. Qed.

(** C54: a directory listing and a lookup give different numbers for the same file. *)
Theorem c54_same_number_refuted :
  exists m t img fs l fs1 x a fs2, source t /\ packs m t img /\ mounted img fs
  /\ fuse_readdir 20 fs 1 0 big = (fs1, Ok l) /\ In x l /\ rd_name x = text "f"
  /\ fuse_lookup 20 fs1 1 (text "f") = (fs2, Ok a) /\ a_ino a <> rd_ino x.
Proof.
  destruct c52_source as (S & P & M & _).
  exists Debug, c52_tree, c52_img, c52_start.
  exists [mkRdent 1 1 true (text "."); mkRdent 1 2 true (text ".."); mkRdent 2 3 true (text "b"); mkRdent 3 4 true (text "a"); mkRdent 4 5 false (text "f")].
  exists c54_state, (mkRdent 4 5 false (text "f")), (mkAttr 5 3 1 false).
  exists (after_lookup c54_state 1 (text "f")). ssplit; [exact S|exact P|exact M| | |reflexivity| | ].
  - apply run_readdir. destruct c52_facts as (F1 & F2 & F3 & F4 & F5 & F6 & F7 & F8). exact F1.
  - do 4 right. left. reflexivity.
  - apply run_lookup. destruct c52_facts as (F1 & F2 & F3 & F4 & F5 & F6 & F7 & F8). exact F2.
  - discriminate.
Qed.
Print Assumptions c54_same_number_refuted.

(** ... and so it is for every listed entry and every lookup in a directory that
    does not begin in sector 0. *)
Theorem c54_never_the_same_partial :
  forall img fs ino offset full fuel fs1 l x fs2 parent name fuel' fs3 a r, mounted img fs ->
  fuse_readdir fuel fs ino offset full = (fs1, Ok l) -> In x l -> rd_name x <> [46] -> rd_name x <> [46; 46] -> requests fs1 fs2 ->
  dirtab_by_inode fs2 parent = Some r -> 0 < r_sector r -> component name -> fuse_lookup fuel' fs2 parent name = (fs3, Ok a) ->
  a_ino a <> rd_ino x.
Proof. exact c54_lemma. Qed.
Print Assumptions c54_never_the_same_partial.

(** C74: looking up the components of a path one after the other leads to the entry
    at that path, with its kind and size, and its bytes can be read. *)
Theorem c74_lookups_succeed :
  forall img d r t, opens_as img d r t ->
  forall fs segs ino fs' cs s n t', mounted img fs -> found_at fs segs ino fs' -> Forall component segs -> selected t segs (FDir cs) ->
  component s -> names (FDir cs) [s] n t' ->
  exists fs2 a, returns (fun fuel => fuse_lookup fuel fs' ino s) (fs2, Ok a)
   /\ a_dir a = is_fdir t' /\ forall b, t' = FFile b -> a_size a = len b.
Proof. exact c74_lookup. Qed.
Print Assumptions c74_lookups_succeed.

Theorem c74_mounted_tree :
  forall img d r t, opens_as img d r t ->
  forall fs segs ino fs' t', mounted img fs -> found_at fs segs ino fs' -> Forall component segs -> selected t segs t' ->
  exists a, fuse_getattr fs' ino = Ok a /\ a_ino a = ino /\ a_dir a = is_fdir t'
   /\ forall b, t' = FFile b -> a_size a = len b /\ a_blocks a = (len b + 2047) / 2048
        /\ forall off n, off < len b -> off + n <= len b -> fuse_read fs' ino off n = Ok (slice b off n).
Proof. exact c74_attr. Qed.
Print Assumptions c74_mounted_tree.

Example c74_example :
  selected c52_tree [text "f"] (FFile [x01; x02; x03]) /\ found_at c52_start [text "f"] 2 c74_state
  /\ fuse_getattr c74_state 2 = Ok (mkAttr 2 3 1 false) /\ fuse_read c74_state 2 1 2 = Ok [x02; x03].
Proof.
  destruct c52_facts as (F1 & F2 & F3 & F4 & F5 & F6 & F7 & F8). ssplit; [ | |exact F4|exact F5].
  - right. exists (text "f"). eapply nm_last; [right; right; left; reflexivity|reflexivity].
  - apply (fa_lookup c52_start [] 1 c52_start 20 (text "f") c74_state (mkAttr 2 3 1 false)); [apply fa_root|].
    apply run_lookup. exact F3.
Qed.

(** C75: a name that does not exist is reported as an input/output error instead of
    ENOENT, in every directory of every image. *)
Theorem c75_missing_name_refuted :
  exists m t img fs s, source t /\ packs m t img /\ mounted img fs /\ component s
  /\ (forall n t', ~ names t [s] n t') /\ snd (fuse_lookup 20 fs 1 s) = Err EIO.
Proof.
  destruct c52_source as (S & P & M & _). exists Debug, c52_tree, c52_img, c52_start, (text "q"). ssplit; [exact S|exact P|exact M| | | ].
  - split; [discriminate|]. intros [E|[]]. discriminate.
  - intros n t' H. inversion H as [? ? ? ? Hin Hs| ? ? ? ? ? ? ? Hin Hs Hn]; subst; [|inversion Hn].
    destruct Hin as [[= <- <-]|[[= <- <-]|[[= <- <-]|[]]]]; discriminate Hs.
  - destruct c52_facts as (F1 & F2 & F3 & F4 & F5 & F6 & F7 & F8). exact F8.
Qed.
Print Assumptions c75_missing_name_refuted.

Theorem c75_missing_name_fails_partial :
  forall img d r t, opens_as img d r t ->
  forall fs segs ino fs' cs s, mounted img fs -> found_at fs segs ino fs' -> Forall component segs -> selected t segs (FDir cs) ->
  component s -> (forall n t', In (n, t') cs -> ~ same_name s n) ->
  returns (fun fuel => fuse_lookup fuel fs' ino s) (fs', Err EIO).
Proof. exact c75_lemma. Qed.
Print Assumptions c75_missing_name_fails_partial.

(** C76: a read that goes beyond the end of the file returns bytes that are not part
    of it, and a read at the end fails instead of returning nothing. Reads inside
    the file are covered by [c74_mounted_tree]. *)
Theorem c76_beyond_the_end_refuted :
  exists m t img fs ino fs' b off n bs, source t /\ packs m t img /\ mounted img fs /\ found_at fs [text "f"] ino fs'
  /\ selected t [text "f"] (FFile b) /\ off < len b
  /\ fuse_read fs' ino off n = Ok bs /\ len b < off + len bs.
Proof.
  destruct c52_source as (S & P & M & _). destruct c74_example as (A & B & _).
  exists Debug, c52_tree, c52_img, c52_start, 2, c74_state, [x01; x02; x03], 1, 3, [x02; x03; x00]. ssplit; [exact S|exact P|exact M|exact B|exact A|reflexivity| |reflexivity]. destruct c52_facts as (F1 & F2 & F3 & F4 & F5 & F6 & F7 & F8). exact F6.
Qed.
Print Assumptions c76_beyond_the_end_refuted.

Theorem c76_at_the_end_refuted :
  exists m t img fs ino fs' b n, source t /\ packs m t img /\ mounted img fs /\ found_at fs [text "f"] ino fs'
  /\ selected t [text "f"] (FFile b) /\ fuse_read fs' ino (len b) n = Err EIO.
Proof.
  destruct c52_source as (S & P & M & _). destruct c74_example as (A & B & _).
  exists Debug, c52_tree, c52_img, c52_start, 2, c74_state, [x01; x02; x03], 4096. ssplit; [exact S|exact P|exact M|exact B|exact A| ]. destruct c52_facts as (F1 & F2 & F3 & F4 & F5 & F6 & F7 & F8). exact F7.
Qed.
Print Assumptions c76_at_the_end_refuted.

Theorem c76_always_at_the_end_partial :
  forall img d r t, opens_as img d r t ->
  forall fs segs ino fs' b off n, mounted img fs -> found_at fs segs ino fs' -> Forall component segs -> selected t segs (FFile b) ->
  b <> [] -> len b <= off -> fuse_read fs' ino off n = Err EIO.
Proof. exact c76_past. Qed.
Print Assumptions c76_always_at_the_end_partial.

(** C101: opening is refused exactly if it asks for write access (bits 0 and 1), for
    creation (bit 6) or for truncation (bit 9). *)
Theorem c101_read_only :
  forall flags, fuse_open flags = Ok tt /\ (forall i, In i [0; 1; 6; 9] -> N.testbit flags i = false)
  \/ fuse_open flags = Err ENOTSUP /\ exists i, In i [0; 1; 6; 9] /\ N.testbit flags i = true.
Proof. exact c101_lemma. Qed.
Print Assumptions c101_read_only.
Example c101_cases : fuse_open 0 = Ok tt /\ fuse_open 1 = Err ENOTSUP /\ fuse_open 32768 = Ok tt /\ fuse_open 33280 = Err ENOTSUP.
Proof. vm_compute. auto. Qed.
