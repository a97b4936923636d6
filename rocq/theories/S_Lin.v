(** Specification vocabulary for the sector-linear device (C37, C38). *)
From Verif Require Import M_Base M_Util M_Layout M_Read M_Img M_Dev M_Trie M_Xfs M_Lin S_Read S_Img S_Dev.
From Coq Require Import Init.Byte.
Local Open Scope N_scope.

(** The 2048 bytes of a sector of an image, which reads as zeros past its end. *)
Definition is_sector (img : list byte) (k : N) (b : list byte) : Prop :=
  len b = 2048 /\ forall i, i < 2048 -> byte_at b i = byte_at img (2048 * k + i).

(** Reading part of a file into a zeroed buffer of one sector fills all of it. *)
Definition sector_copies (fs : fsys (list byte)) (t : ftree) : Prop :=
  forall p b i, at_path t p (FFile b) -> 2048 * i < len b ->
    exists buf, copy_in fs p (fill 2048 x00) (2048 * i) 0 2048 = (buf, Ok 2048) /\ is_sector b i buf.

(** ** Source images *)
Definition zero_padded (b : list byte) : list byte := b ++ fill (2048 * ((len b + 2047) / 2048) - len b) x00.

(** As [scans], and the rest of the last sector of each file is zero. *)
Inductive padded (d : dev) : ftree -> region -> Prop :=
| padded_file b r : r_size r = len b -> supplies d (2048 * r_sector r) (zero_padded b) -> padded d (FFile b) r
| padded_dir cs r es : returns (fun fuel => scan_all fuel d r) (Ok es) ->
    Forall2 (fun c e => name_str e = fst c /\ is_dir e = is_fdir (snd c) /\ padded d (snd c) (region_of e)) cs es ->
    padded d (FDir cs) r.

(** Files that compression can read from an image. *)
Definition no_small_file (t : ftree) : Prop := every_file (fun b => len b = 0 \/ 2048 <= len b) t.
