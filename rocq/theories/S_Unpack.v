(** Specification vocabulary for unpacking (C47-C49, C70). *)
From Verif Require Import M_Base M_Util M_Layout M_Read M_Img M_Cli M_Host M_Unpack S_Codec S_Read S_Img S_Check S_Cli.
From Coq Require Import Init.Byte.
Local Open Scope N_scope.

(** The place that a path without ".." denotes. *)
Definition no_dotdot (s : str) : Prop := ~ In ([46; 46] : str) (pcomps s).
Definition place (cwd : list str) (s : str) : list str := hstart cwd s ++ pcomps s.

Definition strictly_below (loc q : list str) : Prop := exists n p, q = loc ++ n :: p.
Definition leads_to (q loc : list str) : Prop := exists p, loc = q ++ p.

(** Between [h] and [h'] nothing outside [loc] has changed, except that missing
    directories on the way to [loc] may have been created; no directory has been
    removed, and no file replaced by a directory. *)
Definition stays_below (loc : list str) (h h' : host) : Prop :=
  (forall q, h' q = h q \/ strictly_below loc q \/ (leads_to q loc /\ h q = None /\ h' q = Some HDir))
  /\ (forall q, h q = Some HDir -> h' q = Some HDir)
  /\ (forall q b, h q = Some (HFile b) -> exists b', h' q = Some (HFile b')).

(** A name that does not lead upwards or elsewhere when appended to a path. *)
Definition harmless (n : str) : Prop := (forall n', n <> 47 :: n') /\ ~ In ([46; 46] : str) (pcomps n).

(** A file system in which everything is in a directory. *)
Definition rooted (h : host) : Prop := h [] = Some HDir /\ forall p n, h (p ++ [n]) <> None -> h p = Some HDir.

(** A name that Unix accepts. *)
Definition unix_name (n : str) : Prop := n <> [] /\ n <> [46] /\ n <> [46; 46] /\ ~ In 47 n /\ ~ In 0 n.
Definition unix_tree (t : ftree) : Prop := every_dir (fun cs => forall n, In n (map fst cs) -> unix_name n) t.

(** The destination is free: it is an empty directory or it does not exist, and
    then it can be created. *)
Definition free_place (h : host) (loc : list str) : Prop :=
  (forall q, leads_to q loc -> h q = None \/ h q = Some HDir) /\ (forall q, strictly_below loc q -> h q = None).

Definition as_node (t : ftree) : hnode := match t with FFile b => HFile b | FDir _ => HDir end.

(** [h'] has exactly the entries of the tree [t] at [loc], each as [Q] says, and
    is otherwise [h] with the directories that lead to [loc]. *)
Definition restored_as (Q : ftree -> hnode -> Prop) (loc : list str) (t : ftree) (h h' : host) : Prop :=
  (forall p t', at_path t p t' -> exists x, h' (loc ++ p) = Some x /\ Q t' x)
  /\ (forall p x, h' (loc ++ p) = Some x -> exists t', at_path t p t')
  /\ (forall q, leads_to q loc -> h' q = Some HDir)
  /\ (forall q, ~ strictly_below loc q -> ~ leads_to q loc -> h' q = h q).
Definition restored : list str -> ftree -> host -> host -> Prop := restored_as (fun t x => x = as_node t).
(** ... with data missing at the ends of files. *)
Definition restored_in_part : list str -> ftree -> host -> host -> Prop :=
  restored_as (fun t x => match t with FDir _ => x = HDir | FFile b => exists b1 b2, b = b1 ++ b2 /\ x = HFile b1 end).

(** No call fails by itself, and the tree can be created at [dest]. *)
Definition ready_for (cwd : list str) (dest : str) (t : ftree) (w : world) : Prop :=
  w_left w = None /\ rooted (w_fs w) /\ w_fs w cwd = Some HDir /\ no_dotdot dest /\ ~ In 0 dest
  /\ free_place (w_fs w) (place cwd dest) /\ (t <> FDir [] \/ w_fs w (place cwd dest) = Some HDir).
(** ... a file can be created or replaced at [dest]. *)
Definition ready_for_file (cwd : list str) (dest : str) (w : world) : Prop :=
  w_left w = None /\ rooted (w_fs w) /\ no_dotdot dest /\ ~ In 0 dest /\ dirlike dest = false
  /\ exists dir n, place cwd dest = dir ++ [n] /\ w_fs w dir = Some HDir /\ w_fs w (dir ++ [n]) <> Some HDir.

(** All names in the image are harmless, as far as the tool can list them. *)
Definition lists_harmless (fuel : nat) (file : list byte) : Prop :=
  forall d v tree, open_image file = Ok d -> read_volume d = Ok v -> file_tree fuel d (v_root v) = Ok tree ->
  Forall (fun x => harmless (name_str (snd x))) tree.
