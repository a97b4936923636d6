(** Specification vocabulary for the FUSE file system (C52-C54, C74-C76). *)
From Verif Require Import M_Base M_Util M_Layout M_Read M_Img M_Remap M_Cli M_Fuse S_Avl S_Codec S_Read S_Img S_Check S_Cli.
From Coq Require Import Init.Byte Permutation.
Local Open Scope N_scope.

(** The requests that change the state, with any arguments and any outcome. *)
Inductive requests : mount -> mount -> Prop :=
| rq_none fs : requests fs fs
| rq_lookup fuel fs parent name fs' : requests (fst (fuse_lookup fuel fs parent name)) fs' -> requests fs fs'
| rq_readdir fuel fs ino offset full fs' : requests (fst (fuse_readdir fuel fs ino offset full)) fs' -> requests fs fs'.

(** The image [file] has been mounted and has answered any number of requests. *)
Definition mounted (file : list byte) (fs : mount) : Prop := exists fs0, mount_new file = Ok fs0 /\ requests fs0 fs.

(** [ino] was returned by looking up the components [segs] one after the other,
    between any other requests. *)
Inductive found_at (fs : mount) : list str -> N -> mount -> Prop :=
| fa_root : found_at fs [] 1 fs
| fa_later segs ino fs1 fs2 : found_at fs segs ino fs1 -> requests fs1 fs2 -> found_at fs segs ino fs2
| fa_lookup segs parent fs1 fuel s fs2 a : found_at fs segs parent fs1 ->
    fuse_lookup fuel fs1 parent s = (fs2, Ok a) -> found_at fs (segs ++ [s]) (a_ino a) fs2.
Definition selected (t : ftree) (segs : list str) (t' : ftree) : Prop := segs = [] /\ t' = t \/ exists n, names t segs n t'.

(** What the kernel passes to lookup. *)
Definition component (s : str) : Prop := s <> [] /\ ~ In 47 s.

(** ** Directory listings *)
(** A reply has room for at least two records. *)
Definition roomy (full : list rdent -> rdent -> bool) : Prop := forall l x, len l <= 1 -> full l x = false.
(** A directory is read by requests that continue at the position of the last
    record received, until nothing is returned; other requests may come in
    between. *)
Inductive reads_dir (ino : N) : mount -> N -> list rdent -> mount -> Prop :=
| rd_end fuel fs offset full fs' : roomy full -> fuse_readdir fuel fs ino offset full = (fs', Ok []) ->
    reads_dir ino fs offset [] fs'
| rd_more fuel fs offset full l x fs1 fs2 l' fs' : roomy full -> fuse_readdir fuel fs ino offset full = (fs1, Ok (l ++ [x])) ->
    requests fs1 fs2 -> reads_dir ino fs2 (rd_off x) l' fs' -> reads_dir ino fs offset ((l ++ [x]) ++ l') fs'.

Definition shown (x : rdent) : bool * str := (rd_dir x, rd_name x).
Definition dots : list (bool * str) := [(true, [46]); (true, [46; 46])].
Definition entry_shown (e : dentry) : bool * str := (is_dir e, name_str e).
Definition child_shown (c : str * ftree) : bool * str := (is_fdir (snd c), fst c).
