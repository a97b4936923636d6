(** Specification vocabulary for names and on-disk records (C05-C08, C56). *)
From Verif Require Import M_Base M_Layout.
From Coq Require Import Init.Byte.
Local Open Scope N_scope.

(** ASCII upper case, by listing the 26 letters. *)
Definition upper (c : N) : N :=
  match find (fun p => fst p =? c) (combine
     [97;98;99;100;101;102;103;104;105;106;107;108;109;110;111;112;113;114;115;116;117;118;119;120;121;122]
     [65;66;67;68;69;70;71;72;73;74;75;76;77;78;79;80;81;82;83;84;85;86;87;88;89;90]) with
  | Some p => snd p
  | None => c
  end.

(** Strict lexicographic order of lists of numbers, as a relation. *)
Inductive lex_lt : list N -> list N -> Prop :=
| lex_nil y b : lex_lt [] (y :: b)
| lex_head x y a b : x < y -> lex_lt (x :: a) (y :: b)
| lex_tail x a b : lex_lt a b -> lex_lt (x :: a) (x :: b).

(** RFC 3629: UTF-8 encoding of a Unicode scalar value. *)
Definition utf8 (c : N) : list N :=
  if c <? 0x80 then [c]
  else if c <? 0x800 then [0xC0 + c / 64; 0x80 + c mod 64]
  else if c <? 0x10000 then [0xE0 + c / 4096; 0x80 + (c / 64) mod 64; 0x80 + c mod 64]
  else [0xF0 + c / 262144; 0x80 + (c / 4096) mod 64; 0x80 + (c / 64) mod 64; 0x80 + c mod 64].

Definition utf8_str (s : str) : list N := concat (map utf8 s).

Definition scalar (c : N) : Prop := c < 0x110000.

(** Byte [i] (little end first) of a number. *)
Definition byte_of (x : N) (i : N) : N := (x / 256 ^ i) mod 256.

(** The number stored little-endian in the [n] bytes at [off]. *)
Definition field (b : list byte) (off n : nat) (x : N) : Prop :=
  forall i, (i < n)%nat -> option_map b2n (nth_error b (off + i)) = Some (byte_of x (N.of_nat i)).

(** The bytes [l] are found at [off]. *)
Definition bytes_at (b : list byte) (off : nat) (l : list byte) : Prop :=
  forall i, (i < length l)%nat -> nth_error b (off + i) = nth_error l i.
