(** A successful read stays the same on a device that answers more, with more
    fuel. *)
From Verif Require Import M_Base M_Util M_Layout M_Read P_Base.
From Coq Require Import Init.Byte Lia.
Local Open Scope N_scope.

Definition dle (d d' : dev) : Prop := forall o n b, d o n = Ok b -> d' o n = Ok b.
Lemma dle_refl d : dle d d.
Proof. intros o n b H. exact H. Qed.

Section Mono.
Variables d d' : dev.
Hypothesis HD : dle d d'.

Lemma io_mono o n b : io (d o n) = Ok b -> io (d' o n) = Ok b.
Proof. unfold io, map_err. destruct (d o n) as [x| | |] eqn:E; try discriminate. intros [= ->]. rewrite (HD _ _ _ E). reflexivity. Qed.
Lemma read_volume_mono v : read_volume d = Ok v -> read_volume d' = Ok v.
Proof. unfold read_volume, map_err. destruct (d (SECTOR_SIZE * 32) 2048) as [b| | |] eqn:E; try discriminate. rewrite (HD _ _ _ E). auto. Qed.
Lemma read_dirent_mono o x : read_dirent d o = Ok x -> read_dirent d' o = Ok x.
Proof.
  unfold read_dirent. destruct (io (d o 14)) as [b| | |] eqn:E; try discriminate. rewrite (io_mono _ _ _ E). cbn [bind].
  destruct (deserialize_dirent_node b o) as [e|]; auto. destruct (io (d (o + 14) _)) as [b'| | |] eqn:E'; try discriminate. rewrite (io_mono _ _ _ E'). auto.
Qed.
Lemma walk_loop_mono r fuel : forall fuel' st out x, (fuel <= fuel')%nat -> walk_loop fuel d r st out = Ok x -> walk_loop fuel' d' r st out = Ok x.
Proof.
  induction fuel as [|fuel IH]; intros fuel' [|top st] out x Hf H; try discriminate; try (destruct fuel'; exact H).
  destruct fuel' as [|fuel']; [lia|]. cbn [walk_loop] in *. destruct (region_offset r top) as [o| | |]; try discriminate. cbn [bind] in *.
  destruct (read_dirent d o) as [[e|]| | |] eqn:E; try discriminate; rewrite (read_dirent_mono _ _ E); cbn [bind] in *; (apply IH; [lia|exact H]).
Qed.
Lemma walk_dirent_tree_mono fuel fuel' r x : (fuel <= fuel')%nat -> walk_dirent_tree fuel d r = Ok x -> walk_dirent_tree fuel' d' r = Ok x.
Proof. intros Hf. unfold walk_dirent_tree. destruct (region_is_empty r); auto. apply walk_loop_mono. exact Hf. Qed.
Lemma file_tree_loop_mono fuel : forall fuel' st out x, (fuel <= fuel')%nat -> file_tree_loop fuel d st out = Ok x -> file_tree_loop fuel' d' st out = Ok x.
Proof.
  induction fuel as [|fuel IH]; intros fuel' [|[p r] st] out x Hf H; try discriminate; try (destruct fuel'; exact H).
  destruct fuel' as [|fuel']; [lia|]. cbn [file_tree_loop] in *. destruct (walk_dirent_tree fuel d r) as [cs| | |] eqn:E; try discriminate.
  rewrite (walk_dirent_tree_mono fuel fuel' r cs) by (lia || exact E). cbn [bind] in *. apply IH; [lia|exact H].
Qed.
Lemma file_tree_mono fuel fuel' r x : (fuel <= fuel')%nat -> file_tree fuel d r = Ok x -> file_tree fuel' d' r = Ok x.
Proof. apply file_tree_loop_mono. Qed.
End Mono.

Lemma offset_mono d d' base : dle d d' -> dle (offset_dev d base) (offset_dev d' base).
Proof. intros H o n b. apply H. Qed.
Lemma len_firstn {A} k (l : list A) : len (firstn k l) <= len l.
Proof. unfold len. rewrite firstn_length. lia. Qed.
Lemma cut_mono k file : dle (file_dev (firstn k file)) (file_dev file).
Proof.
  intros o n b. unfold file_dev. destruct (n =? 0); auto. pose proof (len_firstn k file) as Hl. destruct (N.leb_spec (o + n) (len (firstn k file))) as [H|H]; [|discriminate].
  destruct (N.leb_spec (o + n) (len file)) as [H'|H']; [|lia]. intros [= <-]. f_equal. unfold slice. rewrite skipn_firstn_comm, firstn_firstn. f_equal.
  unfold len in H. rewrite firstn_length in H. lia.
Qed.
