(** Specification vocabulary for packing from an existing image (C40, C41). *)
From Verif Require Import M_Base M_Util M_Layout M_Read M_Img M_Dev M_Trie M_Xfs S_Read S_Img S_Dev S_Trie.
From Coq Require Import Init.Byte.
Local Open Scope N_scope.

(** The sector scan of the device shows the tree [t] in region [r], in this order. *)
Inductive scans (d : dev) : ftree -> region -> Prop :=
| scans_file b r : r_size r = len b -> supplies d (2048 * r_sector r) b -> scans d (FFile b) r
| scans_dir cs r es : returns (fun fuel => scan_all fuel d r) (Ok es) ->
    Forall2 (fun c e => name_str e = fst c /\ is_dir e = is_fdir (snd c) /\ scans d (snd c) (region_of e)) cs es ->
    scans d (FDir cs) r.

(** All names consist of characters below 256. *)
Definition latin_tree (t : ftree) : Prop := forall n s, entry_in t n s -> latin n.

(** A copier that writes the bytes its source supplies into a growable file. *)
Definition exact_copier (d : dev) (cp : copier (list byte)) : Prop :=
  forall b off out dest, supplies d off b -> b <> [] -> cp off out (len b) dest = (file_write dest out b, Ok (len b)).
