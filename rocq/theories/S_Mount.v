(** Specification vocabulary for mounting (C112-C115). *)
From Verif Require Import M_Base M_Cli M_Fuse M_Host M_Mount.
From Coq Require Import Strings.String.
From Coq Require Import List.
Local Close Scope string_scope.
Local Open Scope N_scope.

(** Options as in mount(8) and README.md of xdvdfs-fsd. *)
Definition plain_options : list (string * mopt) :=
  [("auto_unmount", AutoUnmount); ("allow_other", AllowOther); ("allow_root", AllowRoot); ("default_permissions", DefaultPermissions);
   ("suid", Suid); ("nosuid", NoSuid); ("ro", RO); ("rw", RW); ("exec", Exec); ("noexec", NoExec); ("dev", Dev); ("nodev", NoDev)]%string.
Inductive option_means : str -> mopt -> Prop :=
| om_plain s o : In (s, o) plain_options -> option_means (text s) o
| om_fsname s : option_means (text "fsname=" ++ s) (FSName s)
| om_subtype s : option_means (text "subtype=" ++ s) (Subtype s).
Definition fork_option (x : str) : Prop := x = text "fork" \/ x = text "nofork".
Definition known (x : str) : Prop := fork_option x \/ exists o, option_means x o.

(** The options in arguments, each of which is a list with commas. *)
Fixpoint joined (ps : list str) : str := match ps with [] => [] | [p] => p | p :: ps => p ++ 44 :: joined ps end.
Definition listed (opts : list str) (ps : list str) : Prop :=
  exists pss, Forall2 (fun o l => o = joined l /\ l <> [] /\ Forall (fun p => ~ In 44 p) l) opts pss /\ ps = concat pss.

(** The mount options among [ps], in their order. *)
Inductive mount_options : list str -> list mopt -> Prop :=
| mo_nil : mount_options [] []
| mo_fork x ps l : fork_option x -> mount_options ps l -> mount_options (x :: ps) l
| mo_mount x o ps l : option_means x o -> mount_options ps l -> mount_options (x :: ps) (o :: l).
(** The last one counts; forking is the default. *)
Definition foreground (ps : list str) : Prop := exists a b, ps = a ++ text "nofork" :: b /\ ~ In (text "fork") b.
Definition with_defaults (src : str) (given l : list mopt) : Prop :=
  exists a b, l = given ++ a ++ b
    /\ ((exists s, In (FSName s) given) /\ a = [] \/ (forall s, ~ In (FSName s) given) /\ a = [FSName src])
    /\ ((exists s, In (Subtype s) given) /\ b = [] \/ (forall s, ~ In (Subtype s) given) /\ b = [Subtype (text "xdvdfs")]).

(** POSIX: st_blocks counts units of 512 bytes, and is enough for the file. *)
Definition enough_blocks (a : attr) : Prop := a_size a <= 512 * a_blocks a.
(** The kernel checks permission bits if it is asked to; the user is the owner. *)
Definition may_search (opts : list mopt) (root_user : bool) (a : attr) : Prop :=
  In DefaultPermissions opts -> root_user = true \/ N.testbit (attr_perm a) 6 = true.
Definition may_write (a : attr) : Prop := N.testbit (attr_perm a) 7 = true \/ N.testbit (attr_perm a) 4 = true \/ N.testbit (attr_perm a) 1 = true.
