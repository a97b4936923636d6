(** Model of xdvdfs-core/src/util.rs. *)
From Verif Require Import M_Base.

(** I/O errors of the modelled block devices. *)
Inductive ioerr :=
| OutOfBounds     (* blockdev.rs:44 *)
| UnexpectedEof   (* std::io::ErrorKind::UnexpectedEof, from read_exact *)
| IoOther (code : N).

(** xdvdfs-core/src/util.rs:5-19 [Error<E>]. Only the variants that the
    modelled functions construct; bincode errors cannot occur for the
    fixed-size buffers used. *)
Inductive rerr :=
| IOError (e : ioerr)
| SizeOutOfBounds (offset size : N)
| InvalidVolume
| DirectoryEmpty
| DoesNotExist
| StringEncodingError
| NoDirent
| IsNotDirectory.

(** [char::to_ascii_uppercase]. *)
Definition to_ascii_uppercase (c : N) : N :=
  if ((97 <=? c) && (c <=? 122))%N then (c - 32)%N else c.

(** xdvdfs-core/src/util.rs:75-103 [cmp_ignore_case_utf8]; the loop over two
    character iterators is structural recursion on both strings. *)
Fixpoint cmp_ignore_case_utf8 (a b : str) : comparison :=
  match a, b with
  | [], [] => Eq
  | [], _ :: _ => Lt
  | _ :: _, [] => Gt
  | x :: a', y :: b' =>
      match N.compare (to_ascii_uppercase x) (to_ascii_uppercase y) with
      | Eq => cmp_ignore_case_utf8 a' b'
      | c => c
      end
  end.
