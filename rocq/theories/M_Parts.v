(** The files that xdvdfs-cli cmd_compress.rs and xdvdfs-desktop compress.rs write: the
    output [SplitStdFs] (cmd_compress.rs:23-44, compress.rs:19-40), whose files are
    [std::io::BufWriter]s. The crate ciso, which decides what is written, is not part of
    the repository; here it makes any calls, one after the other, and stops at the first
    one that fails. *)
From Verif Require Import M_Base M_Util M_Read M_Img M_Dev.
From Coq Require Import Init.Byte.
Local Open Scope N_scope.

(** The calls: [create_file], [atomic_write] to the [i]th file (a seek and a write), and
    [close]. *)
Inductive call := Create | Put (i : nat) (pos : N) (b : list byte) | Close (i : nat).

(** A file that is open, or one that has been closed, and whether the flush when its
    writer was dropped succeeded; nobody sees this. *)
Inductive part (S : Type) := Opened (w : bufw S) | Dropped (s : S) (flushed : bool).
Arguments Opened {S}. Arguments Dropped {S}.

(** The capacity of [BufWriter::new]. *)
Definition BUF_SIZE : N := 8192.

Section Parts.
Context {S : Type} (R : raw S) (create : nat -> res ioerr S).

Definition drop_part (p : part S) : part S :=
  match p with
  | Opened w => Dropped (bw_drop R w) (match snd (bw_flush R w) with Ok _ => true | _ => false end)
  | Dropped s f => Dropped s f
  end.
Fixpoint put_nth {A} (i : nat) (x : A) (l : list A) : list A :=
  match l, i with
  | [], _ => []
  | _ :: l, O => x :: l
  | y :: l, Datatypes.S i => y :: put_nth i x l
  end.
(** cmd_compress.rs:37-43. A file is not used after it was closed, which Rust enforces. *)
Definition do_call (c : call) (ps : list (part S)) : list (part S) * res ioerr unit :=
  match c with
  | Create => match create (length ps) with
              | Ok s => (ps ++ [Opened (bw_new s)], Ok tt)
              | Err e => (ps, Err e)
              | Panic p => (ps, Panic p)
              | OutOfFuel => (ps, OutOfFuel)
              end
  | Put i pos b => match nth_error ps i with
                   | Some (Opened w) => let (w, r) := dev_write (bufw_wdev R BUF_SIZE) w pos b in (put_nth i (Opened w) ps, r)
                   | _ => (ps, Panic PUnreachable)
                   end
  | Close i => match nth_error ps i with
               | Some (Opened w) => (put_nth i (drop_part (Opened w)) ps, Ok tt)
               | _ => (ps, Panic PUnreachable)
               end
  end.
Fixpoint do_calls (cs : list call) (ps : list (part S)) : list (part S) * res ioerr unit :=
  match cs with
  | [] => (ps, Ok tt)
  | c :: cs => let (ps, r) := do_call c ps in match r with Ok _ => do_calls cs ps | _ => (ps, r) end
  end.

(** cmd_compress.rs:77-134: the output is dropped in the end, with all files that are
    still open, whatever the outcome. *)
Definition write_parts (cs : list call) : list (part S) * res ioerr unit :=
  let (ps, r) := do_calls cs [] in (map drop_part ps, r).
End Parts.
