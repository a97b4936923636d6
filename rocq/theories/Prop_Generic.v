(** Property C170: packing depends on destination and source only through what they do. *)
From Verif Require Import M_Base M_Util M_Layout M_Read M_Img M_Dev M_Xfs M_Cli M_Unpack M_Host M_Web M_Gui M_Jobs M_Browser.
From Verif Require Import S_Img S_Generic.
From Verif Require Import P_Vm P_Witness P_Src P_Generic.
From Coq Require Import Init.Byte Strings.String.
From Coq Require Import List.
Local Close Scope string_scope.
Local Open Scope N_scope.

(** C170: destinations and sources that behave alike lead to the same messages and the
    same result, and behave alike afterwards. *)
Theorem c170_alike :
  forall D1 D2 (R : D1 -> D2 -> Prop) W1 W2 fs1 fs2 fuel m a b evs a' evs1 r b' evs2 r',
  like_devices R W1 W2 -> like_sources R fs1 fs2 -> R a b ->
  create_xdvdfs_image fuel m W1 fs1 (a, evs) = ((a', evs1), r) -> create_xdvdfs_image fuel m W2 fs2 (b, evs) = ((b', evs2), r') ->
  R a' b' /\ evs1 = evs2 /\ r = r'.
Proof. exact c170_lemma. Qed.
Print Assumptions c170_alike.

(** On every destination that keeps bytes like a file, the image is that of a file. *)
Theorem c170_file :
  forall D (bytes : D -> list byte) W fs t fuel m s evs s' evs1 r, file_like bytes W fs t ->
  create_xdvdfs_image fuel m W fs (s, evs) = ((s', evs1), r) ->
  create_xdvdfs_image fuel m file_wdev (std_fs t) (bytes s, evs) = ((bytes s', evs1), r).
Proof. exact c170_file_lemma. Qed.
Print Assumptions c170_file.

(** In a browser whose calls do not fail, packing (C158) is packing as in C93. *)
Theorem c170_browser :
  forall say F m t old fuel new evs r, source t -> untroubled F t -> web_pack fuel m None t old = (new, evs, r) ->
  br_pack say fuel m F t old = (new, web_pack_job (Ok tt) evs (map_err say r), map_err say r).
Proof. exact c170_browser_lemma. Qed.
Print Assumptions c170_browser.

(** A destination that also counts its writes. *)
Definition c170_tree : ftree := FDir [(text "a", FFile [x68; x69]); (text "S", FDir [])].
Definition c170_dev : wdev (list byte * N) := mkWdev _ (fun s off b => ((file_write (fst s) off b, snd s + 1), Ok tt)) (fun s => (s, Ok (len (fst s)))).
Definition c170_fs : fsys (list byte * N) :=
  mkFsys _ (std_read_dir c170_tree) (fun p s i o n => let (b, r) := std_copy_file c170_tree p (fst s) i o n in ((b, snd s + 1), r)).
Definition c170_fate : fate := mkFate (fun _ => true) (fun _ => true) true true (fun _ => true) (fun p => match lookup_tree p c170_tree with Some (FFile b) => Some b | _ => None end).
Definition c170_run := create_xdvdfs_image 10 Debug c170_dev c170_fs (([], 0), []).
Example c170_example :
  source c170_tree /\ file_like fst c170_dev c170_fs c170_tree
  /\ len (fst (fst (fst c170_run))) = 131072 /\ snd (fst (fst c170_run)) = 5 /\ snd c170_run = Ok tt
  /\ len (fst (fst (br_pack (fun _ => []) 10 Debug c170_fate c170_tree []))) = 131072.
Proof.
  split; [apply source_b_ok; vm_compute; reflexivity|]. split; [|vm_all]. split; [|split; [|split]].
  - intros [s n] off b. split; reflexivity.
  - intros [s n]. split; reflexivity.
  - intros p. reflexivity.
  - intros [s n] p out size. cbn [copy_in c170_fs fst]. destruct (std_copy_file _ _ _ _ _ _). split; reflexivity.
Qed.
Example c170_fate_untroubled : untroubled c170_fate c170_tree.
Proof.
  split; [reflexivity|]. split; [reflexivity|]. split; [reflexivity|]. split; [reflexivity|]. split; [reflexivity|].
  intros p b A. inversion A as [|cs n t p' t' I A']; subst. destruct I as [[= <- <-]|[[= <- <-]|[]]].
  - inversion A'; subst. reflexivity.
  - inversion A' as [|cs2 n2 t2 p2 t3 I2 A2]; subst. destruct I2.
Qed.
