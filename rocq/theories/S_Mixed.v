(** Specification vocabulary for overlays of directories that contain anything (C171). *)
From Verif Require Import M_Base M_Util M_Layout M_Read M_Img M_Trie M_Remap M_Special.
From Coq Require Import Init.Byte.
Local Open Scope N_scope.

(** Something in the directory is not a file or directory, or cannot be listed, or has a
    name that is not UTF-8. *)
Inductive unlistable : raw -> Prop :=
| ul_locked : unlistable RLocked
| ul_other : unlistable ROther
| ul_name cs t : In (None, t) cs -> unlistable (RDir cs)
| ul_below cs n t : In (n, t) cs -> unlistable t -> unlistable (RDir cs).

(** No file of the overlay is one that cannot be opened. *)
Definition openable (t : raw) (tr : trie mapent) : Prop :=
  forall p e n, trie_get tr p = @Ok ioerr _ (Some e) -> lookup_raw (m_host_path e) t <> Some (RSealed n).
(** No rule matches the name. *)
Definition unmatched (keys : list ((str * str) * glob)) (n : str) : Prop := forall k, In k keys -> snd k n = None.
