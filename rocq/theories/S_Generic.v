(** Specification vocabulary for packing to other kinds of destinations (C170). *)
From Verif Require Import M_Base M_Util M_Layout M_Img M_Browser S_Img.
From Coq Require Import Init.Byte.
Local Open Scope N_scope.

(** The same result, and states that correspond to each other. *)
Definition corresponds {D1 D2 A} (R : D1 -> D2 -> Prop) (x : D1 * res ioerr A) (y : D2 * res ioerr A) : Prop := R (fst x) (fst y) /\ snd x = snd y.
(** Two destinations that behave alike. *)
Definition like_devices {D1 D2} (R : D1 -> D2 -> Prop) (W1 : wdev D1) (W2 : wdev D2) : Prop :=
  forall a b, R a b -> (forall off bytes, corresponds R (dev_write W1 a off bytes) (dev_write W2 b off bytes)) /\ corresponds R (dev_len W1 a) (dev_len W2 b).
(** Two sources that behave alike towards them: only whole files are copied. *)
Definition like_sources {D1 D2} (R : D1 -> D2 -> Prop) (fs1 : fsys D1) (fs2 : fsys D2) : Prop :=
  (forall p, read_dir fs1 p = read_dir fs2 p)
  /\ forall a b p out size, R a b -> corresponds R (copy_in fs1 p a 0 out size) (copy_in fs2 p b 0 out size).

(** A destination that keeps bytes like a file does, and a source that copies to it. *)
Definition file_like {D} (bytes : D -> list byte) (W : wdev D) (fs : fsys D) (t : ftree) : Prop :=
  (forall s off b, bytes (fst (dev_write W s off b)) = file_write (bytes s) off b /\ snd (dev_write W s off b) = Ok tt)
  /\ (forall s, bytes (fst (dev_len W s)) = bytes s /\ snd (dev_len W s) = Ok (len (bytes s)))
  /\ (forall p, read_dir fs p = std_read_dir t p)
  /\ (forall s p out size, bytes (fst (copy_in fs p s 0 out size)) = fst (std_copy_file t p (bytes s) 0 out size)
        /\ snd (copy_in fs p s 0 out size) = snd (std_copy_file t p (bytes s) 0 out size)).

(** No call of the browser fails, and the files are as they were. *)
Definition untroubled (F : fate) (t : ftree) : Prop :=
  (forall p, f_lists F p = true) /\ (forall p, f_sizes F p = true) /\ f_opens F = true /\ f_closes F = true /\ (forall n, f_calls F n = true)
  /\ forall p b, at_path t p (FFile b) -> f_now F p = Some b.
