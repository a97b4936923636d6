(** The files that compressing in the browser writes: xdvdfs-web fs/ciso.rs
    [CisoOutputDirectory], with fs/mod.rs:14-57 [FSWriteWrapper]. As in M_Parts the crate
    ciso makes any calls, one after the other, and stops at the first one that fails. What is
    written to a stream gets into the file when the stream is closed. *)
From Verif Require Import M_Base M_Util M_Read M_Img M_Dev M_Web M_Parts.
From Coq Require Import Init.Byte.
Local Open Scope N_scope.

(** What the browser does: whether the [i]th file can be created and opened for writing,
    whether the [n]th call succeeds, and what is in the [i]th file before. *)
Record weather := mkWeather {
  w_creates : nat -> bool;
  w_opens : nat -> bool;
  w_calls : nat -> bool;
  w_old : nat -> list byte
}.
(** The stream, while it is open, and the bytes of the file. *)
Record spart := mkSpart { p_stream : option web; p_bytes : list byte }.

(** fs/ciso.rs:21-35 and 38-45; [n] counts the calls. Opening the stream and closing it are
    unwrapped (fs/mod.rs:25 and 30). A file whose stream could not be opened is left out. *)
Definition s_call (W : weather) (n : nat) (c : call) (ps : list spart) : list spart * res ioerr unit :=
  match c with
  | Create =>
      if negb (w_creates W (length ps)) then (ps, Err (IoOther 2007))
      else if negb (w_opens W (length ps)) then (ps, Panic PUnwrap)
      else (ps ++ [mkSpart (Some web_new) (w_old W (length ps))], Ok tt)
  | Put i pos b =>
      match nth_error ps i with
      | Some (mkSpart (Some w) f) =>
          if w_calls W n then let (w, r) := web_write None w pos b in (put_nth i (mkSpart (Some w) f) ps, r)
          else (ps, Err (IoOther 2000))
      | _ => (ps, Panic PUnreachable)
      end
  | Close i =>
      match nth_error ps i with
      | Some (mkSpart (Some w) f) =>
          if w_calls W n then (put_nth i (mkSpart None (ws_data w)) ps, Ok tt) else (ps, Panic PUnwrap)
      | _ => (ps, Panic PUnreachable)
      end
  end.
Fixpoint s_calls (W : weather) (n : nat) (cs : list call) (ps : list spart) : list spart * res ioerr unit :=
  match cs with
  | [] => (ps, Ok tt)
  | c :: cs => let (ps, r) := s_call W n c ps in match r with Ok _ => s_calls W (S n) cs ps | _ => (ps, r) end
  end.
(** ops/browser.rs:67-90: the files afterwards. Streams that are still open are given up. *)
Definition write_streams (W : weather) (cs : list call) : list (list byte) * res ioerr unit :=
  let (ps, r) := s_calls W 0 cs [] in (map p_bytes ps, r).
