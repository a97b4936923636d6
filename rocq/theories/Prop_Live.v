(** Properties C162 and C163: devices that change or fail while they are read, and the
    requests that reading makes. *)
From Verif Require Import M_Base M_Util M_Layout M_Read M_Check M_Img M_Dev M_Cli M_Live.
From Verif Require Import S_Img S_Read S_Total S_Live.
From Verif Require Import P_Vm P_Witness P_Src P_Trace P_Live P_Asks.
From Coq Require Import Init.Byte Strings.String.
From Coq Require Import List.
Local Close Scope string_scope.
Local Open Scope N_scope.

(** On a device that does not change, the computations are those of M_Read. *)
Theorem c162_still :
  forall d base, snd (live (still d) tt (l_probe XDVD_OFFSETS)) = offset_wrapper_new d
  /\ snd (live (still d) tt (l_volume base)) = read_volume (offset_dev d base)
  /\ (forall fuel r path, snd (live (still d) tt (l_path fuel base r path)) = walk_path fuel (offset_dev d base) r path)
  /\ (forall fuel r, snd (live (still d) tt (l_walk fuel base r)) = walk_dirent_tree fuel (offset_dev d base) r)
  /\ (forall fuel r, snd (live (still d) tt (l_tree fuel base r)) = file_tree fuel (offset_dev d base) r)
  /\ (forall fuel r, snd (live (still d) tt (l_scan fuel base r)) = scan_all fuel (offset_dev d base) r)
  /\ (forall x, snd (live (still d) tt (l_data base x)) = read_data_all (offset_dev d base) x)
  /\ (forall x n o, snd (live (still d) tt (l_data_at base x n o)) = read_data_offset (offset_dev d base) x n o)
  /\ (forall H fuel v, snd (live (still d) tt (l_checksum H fuel base v)) = checksum H fuel (offset_dev d base) v).
Proof. exact (fun d base => conj (same_probe d _) (conj (same_volume d base) (conj (same_path d base) (conj (same_walk d base) (conj (same_tree d base) (conj (same_scan d base) (conj (same_data d base) (conj (same_data_at d base) (same_checksum d base))))))))). Qed.
Print Assumptions c162_still.

(** C162: when requests fail now and then, the result is right or an I/O error is reported
    ("invalid volume" for the volume descriptor). *)
Theorem c162_intermittent :
  forall S (D : ldev S) d base, intermittent D d ->
  (forall s, snd (live D s (l_volume base)) = read_volume (offset_dev d base) \/ snd (live D s (l_volume base)) = Err InvalidVolume)
  /\ (forall v, right_or_io D (l_root_dirent base v) (root_dirent (offset_dev d base) v))
  /\ (forall fuel r path, right_or_io D (l_path fuel base r path) (walk_path fuel (offset_dev d base) r path))
  /\ (forall fuel r, right_or_io D (l_walk fuel base r) (walk_dirent_tree fuel (offset_dev d base) r))
  /\ (forall fuel r, right_or_io D (l_tree fuel base r) (file_tree fuel (offset_dev d base) r))
  /\ (forall fuel r, right_or_io D (l_scan fuel base r) (scan_all fuel (offset_dev d base) r))
  /\ (forall x, right_or_io D (l_data base x) (read_data_all (offset_dev d base) x))
  /\ (forall x n o, right_or_io D (l_data_at base x n o) (read_data_offset (offset_dev d base) x n o))
  /\ (forall H fuel v, right_or_io D (l_checksum H fuel base v) (checksum H fuel (offset_dev d base) v)).
Proof. exact (fun S D d base => c162_right D d base). Qed.
Print Assumptions c162_intermittent.

(** When the answers are arbitrary and may depend on all earlier requests, nothing panics, ... *)
Theorem c162_no_panic :
  forall S (D : ldev S) base, answers D -> forall s,
  ~ panics (snd (live D s (l_probe XDVD_OFFSETS))) /\ ~ panics (snd (live D s (l_volume base)))
  /\ (forall v, ~ panics (snd (live D s (l_root_dirent base v))))
  /\ (forall fuel r path, ~ only_slashes path -> ~ panics (snd (live D s (l_path fuel base r path))))
  /\ (forall fuel r, ~ panics (snd (live D s (l_walk fuel base r))))
  /\ (forall fuel r, ~ panics (snd (live D s (l_tree fuel base r))))
  /\ (forall x, ~ panics (snd (live D s (l_data base x))))
  /\ (forall x n o, ~ panics (snd (live D s (l_data_at base x n o))))
  /\ (forall H fuel v, ~ panics (snd (live D s (l_checksum H fuel base v)))).
Proof. exact (fun S D base => c162_calm D base). Qed.
Print Assumptions c162_no_panic.
(** ... and scanning a table of [r_size r] bytes ends. *)
Theorem c162_scan_ends :
  forall S (D : ldev S) base r fuel, answers D -> r_size r + 4096 < N.of_nat fuel -> forall s, snd (live D s (l_scan fuel base r)) <> OutOfFuel.
Proof. exact (fun S D base r fuel => c162_scan D base r fuel). Qed.
Print Assumptions c162_scan_ends.

(** Two images; the first is replaced by the second after [k] requests. *)
Definition c162_a : list byte := image_of (record 0 0 34 3 32 [x61]) [x68; x69; x21].
Definition c162_b : list byte := image_of (record 0 0 34 5 32 [x62]) [x68; x65; x6c; x6c; x6f].
Definition c162_swap (k : nat) : ldev nat := fun s o n => (S s, if Nat.ltb s k then file_dev c162_a o n else file_dev c162_b o n).
(** The request number [k] fails. *)
Definition c162_flaky (k : nat) : ldev nat := fun s o n => (S s, if Nat.eqb s k then Err (IoOther 5) else file_dev c162_a o n).
Definition c162_list (x : res rerr (list dentry)) : res rerr (list (str * N)) := let* es := x in Ok (map (fun e => (name_str e, r_size (d_region (d_dirent (e_node e))))) es).
Example c162_example :
  c162_list (snd (live (c162_swap 2) 0%nat (l_walk 9 0 root33))) = Ok [(text "a", 3)]
  /\ c162_list (snd (live (c162_swap 0) 0%nat (l_walk 9 0 root33))) = Ok [(text "b", 5)]
  /\ c162_list (snd (live (c162_flaky 1) 0%nat (l_walk 9 0 root33))) = Err (IOError (IoOther 5))
  /\ c162_list (snd (live (c162_flaky 2) 0%nat (l_walk 9 0 root33))) = Ok [(text "a", 3)]
  /\ asked (c162_swap 2) 0%nat (l_walk 9 0 root33) = [(67584, 14); (67598, 1)].
Proof. vm_all. Qed.

(** Finding: the name of an entry is not read together with the entry. If the image is
    replaced in between, an entry is listed that neither of the images has. *)
Theorem c162_atomic_refuted :
  exists (D : ldev nat) a b e, (forall s o n, snd (D s o n) = file_dev a o n \/ snd (D s o n) = file_dev b o n)
    /\ snd (live D 0%nat (l_walk 9 0 root33)) = Ok [e]
    /\ forall es, walk_dirent_tree 9 (file_dev a) root33 = Ok es \/ walk_dirent_tree 9 (file_dev b) root33 = Ok es -> ~ In e es.
Proof.
  exists (c162_swap 1), c162_a, c162_b. eexists. split; [|split].
  - intros s o n. unfold c162_swap. simpl. destruct (Nat.ltb s 1); [left|right]; reflexivity.
  - vm_compute. reflexivity.
  - intros es [H|H]; vm_compute in H; injection H as <-; intros [Q|[]]; discriminate Q.
Qed.
Print Assumptions c162_atomic_refuted.

(** C163: a scan asks for every sector of the table once, in their order, whatever the device
    does; if it succeeds, for all of them. *)
Theorem c163_scan :
  forall S (D : ldev S) base fuel r s, r_size r <> 0 -> exists n, n <= (r_size r + 2047) / 2048
  /\ asked D s (l_scan fuel base r) = each_sector base (r_sector r) n
  /\ forall es, snd (live D s (l_scan fuel base r)) = Ok es -> n = (r_size r + 2047) / 2048.
Proof. exact (fun S D base fuel r s => c163_scan_spec D base fuel r s). Qed.
Print Assumptions c163_scan.
(** Listing [n] entries takes at most 3 n + 1 requests. *)
Theorem c163_list :
  forall S (D : ldev S) base fuel r s es, snd (live D s (l_walk fuel base r)) = Ok es -> (length (asked D s (l_walk fuel base r)) <= 3 * length es + 1)%nat.
Proof. exact (fun S D base fuel r s es => c163_walk_lemma D base fuel r s es). Qed.
Print Assumptions c163_list.
(** Looking up a path in a packed image takes at most 38 requests per component. *)
Theorem c163_lookup :
  forall m t img v segs path fuel, source t -> packs m t img -> read_volume (file_dev img) = Ok v -> path_of segs path ->
  (length (asked (still (file_dev img)) tt (l_path fuel 0 (v_root v) path)) <= 38 * length segs)%nat.
Proof. exact c163_lookup_lemma. Qed.
Print Assumptions c163_lookup.
(** Data takes one request, or none; a search for the volume one for each place, up to the
    one that is chosen. *)
Theorem c163_data :
  forall S (D : ldev S) base s x,
  asked D s (l_data base x) = (if r_size (d_region x) =? 0 then [] else [(2048 * r_sector (d_region x) + base, r_size (d_region x))])
  /\ forall n o, asked D s (l_data_at base x n o) = (if r_size (d_region x) <=? o then [] else [(2048 * r_sector (d_region x) + o + base, N.min n (r_size (d_region x)))]).
Proof. exact (fun S D base s x => conj (c163_data_lemma D base s x) (c163_data_at_lemma D base s x)). Qed.
Print Assumptions c163_data.
Theorem c163_probe :
  forall S (D : ldev S) s, exists k, asked D s (l_probe XDVD_OFFSETS) = map (fun o => (65536 + o, 2048)) (firstn k XDVD_OFFSETS)
  /\ forall o, snd (live D s (l_probe XDVD_OFFSETS)) = Ok o -> exists l, firstn k XDVD_OFFSETS = l ++ [o].
Proof. exact (fun S D s => c163_probe_lemma D XDVD_OFFSETS s). Qed.
Print Assumptions c163_probe.

(** A table of two sectors; an image that is not at the start of the file. *)
Example c163_example :
  asked (still (file_dev c162_a)) tt (l_scan 9 0 root33) = [(67584, 2048)]
  /\ asked (still (fun o n => Ok (fill n xff))) tt (l_scan 9 0 (mkRegion 40 2049)) = [(81920, 2048); (83968, 2048)]
  /\ asked (still (file_dev c162_a)) tt (l_path 9 0 root33 (text "/A")) = [(67584, 14); (67598, 1)]
  /\ asked (still (file_dev c162_a)) tt (l_probe XDVD_OFFSETS) = [(65536, 2048)]
  /\ asked (still (offset_dev (file_dev c162_a) 0)) tt (l_data 0 (mkDdata (mkRegion 34 3) 0 1)) = [(69632, 3)].
Proof. vm_all. Qed.
