(** Model of xdvdfs-desktop pack.rs, unpack.rs and compress.rs: commands called by
    the user interface. The answer is [None], or a message for the user. *)
From Verif Require Import M_Base M_Util M_Layout M_Read M_Img M_Dev M_Xfs M_Remap M_Cli M_Unpack M_Exiso M_Stdfs M_Host.
From Coq Require Import Init.Byte.
Local Open Scope N_scope.

(** [.ok()?] in a function that returns [Option<String>]: an error is answered by
    [None]. *)
Definition or_none {A} (x : hprog A) (k : A -> hprog (option str)) : hprog (option str) := fun w =>
  match x w with
  | (w, Ok a) => k a w
  | (w, Err _) => (w, Ok None)
  | (w, Panic p) => (w, Panic p)
  | (w, OutOfFuel) => (w, OutOfFuel)
  end.

(** What packing left in the output file, which is open. *)
Definition put_packed (p : list str) (x : list byte * res herr unit) : hprog unit := fun w =>
  (after w (hset (w_fs w) p (HFile (fst x))) 0, snd x).

(** pack.rs:5-51 [pack_image]; the message for special files is not modelled, as
    the host has none. *)
Definition desk_pack (cwd : list str) (pk : packer) (source dest : str) : hprog (option str) :=
  or_none (open_trunc cwd dest) (fun p =>
  or_none (hres (fun w => existing (w_fs w) cwd source)) (fun '(s, _) =>
  or_none (fun w => put_packed p (pk (w_fs w) s) w) (fun _ => hret None))).

(** unpack.rs:8-78 [unpack_image]. The loop is that of [copyout_directory]
    (cmd_unpack.rs:20-68); a directory cannot be read as an image. *)
Definition desk_unpack (fuel : nat) (cwd : list str) (source dest : str) : hprog (option str) :=
  or_none (hres (fun w => existing (w_fs w) cwd source)) (fun '(_, n) =>
  match n with
  | HDir => hret None
  | HFile file => fun w =>
      match cmd_unpack fuel cwd source file (Some dest) w with
      | (w, Ok _) | (w, Err _) => (w, Ok None)
      | (w, Panic p) => (w, Panic p)
      | (w, OutOfFuel) => (w, OutOfFuel)
      end
  end).

(** compress.rs:43-122 [compress_image]; [cp] is the rest of the work. *)
Definition desk_compress (cwd : list str) (cp : list str -> hprog unit) (source : str) : hprog (option str) :=
  or_none (hres (fun w => existing (w_fs w) cwd source)) (fun '(s, _) =>
  or_none (cp s) (fun _ => hret None)).

(** xdvdfs-web ops/tauri.rs:57-63, 83-89, 128-134: the answer as the page sees it. *)
Definition page_result (r : option str) : unit + str := match r with Some e => inr e | None => inl tt end.
