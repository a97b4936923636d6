(** Basic vocabulary of the model: results, panics, bytes, machine integers. *)
From Coq Require Export List NArith ZArith Bool Lia.
From Coq Require Import Init.Byte Strings.Byte.
Export ListNotations.

(** Reasons for a Rust panic. One constructor per kind of panicking construct. *)
Inductive panic :=
| PAssert        (* assert!, assert_eq! *)
| PUnwrap        (* Option/Result unwrap, expect *)
| PIndex         (* slice or vector index out of range, copy_from_slice length mismatch *)
| PUnreachable   (* unreachable! *)
| PUnimplemented (* unimplemented! *)
| POverflow.     (* arithmetic overflow in a debug build *)

(** Outcome of a modelled Rust function: normal return of [Result::Ok] or of a
    plain value, [Result::Err], a panic, or exhaustion of the fuel that stands
    for an unbounded loop (never a Rust outcome; theorems exclude it or state
    that every amount of fuel is exhausted, i.e. non-termination). *)
Inductive res (E A : Type) :=
| Ok (a : A)
| Err (e : E)
| Panic (p : panic)
| OutOfFuel.
Arguments Ok {E A} a.
Arguments Err {E A} e.
Arguments Panic {E A} p.
Arguments OutOfFuel {E A}.

Definition bind {E A B} (r : res E A) (k : A -> res E B) : res E B :=
  match r with
  | Ok a => k a
  | Err e => Err e
  | Panic p => Panic p
  | OutOfFuel => OutOfFuel
  end.

Declare Scope res_scope.
Delimit Scope res_scope with res.
Notation "'let*' x ':=' r 'in' k" := (bind r (fun x => k))
  (at level 200, x pattern, r at level 100, k at level 200, right associativity) : res_scope.
Open Scope res_scope.

(** [Result::map_err]. *)
Definition map_err {E F A} (f : E -> F) (r : res E A) : res F A :=
  match r with
  | Ok a => Ok a
  | Err e => Err (f e)
  | Panic p => Panic p
  | OutOfFuel => OutOfFuel
  end.

(** [Option::ok_or]. *)
Definition ok_or {E A} (o : option A) (e : E) : res E A :=
  match o with Some a => Ok a | None => Err e end.

(** [Option::unwrap], [expect]. *)
Definition unwrap {E A} (o : option A) : res E A :=
  match o with Some a => Ok a | None => Panic PUnwrap end.

(** [v[i]] on a Rust vector or slice. *)
Definition index {E A} (l : list A) (i : nat) : res E A :=
  match nth_error l i with Some a => Ok a | None => Panic PIndex end.

(** [assert!(b)]. *)
Definition rassert {E} (b : bool) : res E unit :=
  if b then Ok tt else Panic PAssert.

(** Iterator [map] + [collect] into a [Result<Vec<_>, E>]: stops at the first failure. *)
Fixpoint mapM {E A B} (f : A -> res E B) (l : list A) : res E (list B) :=
  match l with
  | [] => Ok []
  | a :: l' => let* b := f a in let* bs := mapM f l' in Ok (b :: bs)
  end.

(** Fold over a slice with early exit. *)
Fixpoint foldM {E A S} (f : S -> A -> res E S) (s : S) (l : list A) : res E S :=
  match l with
  | [] => Ok s
  | a :: l' => let* s' := f s a in foldM f s' l'
  end.

(** In-place update of a vector element (used only for indices that have been
    checked; out of range it is the identity). *)
Fixpoint upd {A} (l : list A) (i : nat) (x : A) : list A :=
  match l, i with
  | [], _ => []
  | _ :: l', O => x :: l'
  | a :: l', S i' => a :: upd l' i' x
  end.

(** Rust's two treatments of integer overflow: checked in debug builds,
    wrapping in release builds. *)
Inductive build := Debug | Release.

Definition u32_modulus : N := 4294967296.   (* 2^32 *)

(** [a + b] on u32. *)
Definition u32_add {E} (m : build) (a b : N) : res E N :=
  if (a + b <? u32_modulus)%N then Ok (a + b)%N
  else match m with Debug => Panic POverflow | Release => Ok ((a + b) mod u32_modulus)%N end.

(** [x.try_into::<uW>()] for an unsigned target of the given modulus. *)
Definition try_into {E} (modulus : N) (e : E) (x : N) : res E N :=
  if (x <? modulus)%N then Ok x else Err e.

(** Bytes. *)
Definition b2n (b : byte) : N := Byte.to_N b.
Definition n2b (n : N) : byte :=
  match Byte.of_N (n mod 256)%N with Some b => b | None => x00 end.

(** Length as an unsigned integer. *)
Definition len {A} (l : list A) : N := N.of_nat (length l).

(** Slicing [l[off .. off+n]] without bounds check. *)
Definition slice {A} (l : list A) (off n : N) : list A :=
  firstn (N.to_nat n) (skipn (N.to_nat off) l).

(** [vec![x; n]]. *)
Definition fill {A} (n : N) (x : A) : list A := repeat x (N.to_nat n).

(** Unicode text: a Rust [String] is its sequence of code points. *)
Definition str := list N.

(** Number of bytes of a code point in UTF-8 (Rust's [char::len_utf8]). *)
Definition utf8_char_len (c : N) : N :=
  if (c <? 128)%N then 1 else if (c <? 2048)%N then 2 else if (c <? 65536)%N then 3 else 4.

(** [str::len]: length in UTF-8 bytes. *)
Definition utf8_len (s : str) : N := fold_right (fun c n => (utf8_char_len c + n)%N) 0%N s.

(** Equality tests. *)
Fixpoint str_eqb (a b : str) : bool :=
  match a, b with
  | [], [] => true
  | x :: a', y :: b' => (x =? y)%N && str_eqb a' b'
  | _, _ => false
  end.

Fixpoint bytes_eqb (a b : list byte) : bool :=
  match a, b with
  | [], [] => true
  | x :: a', y :: b' => Byte.eqb x y && bytes_eqb a' b'
  | _, _ => false
  end.

(** Lexicographic comparison (derived [Ord] of [Vec], [Ord] of [str]). *)
Fixpoint lex_cmp {A} (cmp : A -> A -> comparison) (a b : list A) : comparison :=
  match a, b with
  | [], [] => Eq
  | [], _ :: _ => Lt
  | _ :: _, [] => Gt
  | x :: a', y :: b' => match cmp x y with Eq => lex_cmp cmp a' b' | c => c end
  end.

(** [Ord] of [String]: Rust compares UTF-8 bytes; comparing code points gives
    the same order (theorem [utf8_order_is_code_point_order]). *)
Definition str_cmp : str -> str -> comparison := lex_cmp N.compare.

(** xdvdfs-core/src/layout.rs:12 [SECTOR_SIZE]. *)
Definition SECTOR_SIZE : N := 2048.
