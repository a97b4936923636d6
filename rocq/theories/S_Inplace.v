(** Specification vocabulary for packing onto existing data (C129-C131). *)
From Verif Require Import M_Base M_Util M_Layout M_Read M_Img S_Img.
From Coq Require Import Init.Byte.
Local Open Scope N_scope.

(** Copying a whole file through a wrapper with offset [base] writes its bytes there. *)
Definition copies_at (base : N) (fs : fsys (list byte)) (t : ftree) : Prop :=
  forall p b img off, at_path t p (FFile b) -> copy_in fs p img 0 off (len b) = (file_write img (off + base) b, Ok (len b)).
(** A source whose files are copied through such a wrapper. *)
Definition shifted (base : N) (fs : fsys (list byte)) : fsys (list byte) :=
  mkFsys _ (read_dir fs) (fun p img i off n => copy_in fs p img i (off + base) n).
