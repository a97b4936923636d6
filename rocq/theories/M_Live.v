(** Reading once more (M_Read, M_Check), as computations that ask a device for bytes one
    request after the other, so that the device may change or fail meanwhile. *)
From Verif Require Import M_Base M_Util M_Layout M_Read M_Check.
From Coq Require Import Init.Byte.
Local Open Scope N_scope.

(** A computation is done, or asks for [n] bytes at [off] and goes on with the answer. *)
Inductive rd (A : Type) : Type :=
| Done (r : res rerr A)
| Ask (off n : N) (k : res ioerr (list byte) -> rd A).
Arguments Done {A}. Arguments Ask {A}.
Fixpoint rbind {A B} (x : rd A) (f : A -> rd B) : rd B :=
  match x with
  | Done (Ok a) => f a
  | Done (Err e) => Done (Err e)
  | Done (Panic p) => Done (Panic p)
  | Done OutOfFuel => Done OutOfFuel
  | Ask o n k => Ask o n (fun b => rbind (k b) f)
  end.
Notation "'ask*' x := r 'in' k" := (rbind r (fun x => k)) (at level 200, x pattern, r at level 100, k at level 200, right associativity).

(** A device that changes: the state after a request, and the answer. *)
Definition ldev (S : Type) := S -> N -> N -> S * res ioerr (list byte).
Fixpoint live {S A} (D : ldev S) (s : S) (x : rd A) : S * res rerr A :=
  match x with
  | Done r => (s, r)
  | Ask o n k => let (s, b) := D s o n in live D s (k b)
  end.
(** The requests that are made. *)
Fixpoint asked {S A} (D : ldev S) (s : S) (x : rd A) : list (N * N) :=
  match x with
  | Done _ => []
  | Ask o n k => let (s, b) := D s o n in (o, n) :: asked D s (k b)
  end.
(** A device that does not change. *)
Definition still (d : dev) : ldev unit := fun s o n => (s, d o n).

(** One request; an error becomes an I/O error (read.rs:27-32, 138-140, 146-148, 271). *)
Definition ask (off n : N) : rd (list byte) := Ask off n (fun b => Done (io b)).

(** read.rs:92-109 [read_volume]. *)
Definition l_volume (base : N) : rd volume :=
  Ask (SECTOR_SIZE * 32 + base) 2048 (fun b => Done (
    let* buffer := map_err (fun _ => InvalidVolume) b in
    let v := volume_de buffer in
    if volume_is_valid v then Ok v else Err InvalidVolume)).
(** blockdev.rs:146-172 [OffsetWrapper::new]. *)
Fixpoint rtry {A B} (x : rd A) (f : A -> rd B) (g : rd B) : rd B :=
  match x with
  | Done (Ok a) => f a
  | Done (Err e) => g
  | Done (Panic p) => Done (Panic p)
  | Done OutOfFuel => Done OutOfFuel
  | Ask o n k => Ask o n (fun b => rtry (k b) f g)
  end.
Fixpoint l_probe (offsets : list N) : rd N :=
  match offsets with
  | [] => Done (Err InvalidVolume)
  | o :: os => rtry (l_volume o) (fun _ => Done (Ok o)) (l_probe os)
  end.
(** read.rs:132-154 [read_dirent]. [base] is the offset of the wrapped device in all that follows. *)
Definition l_dirent (base offset : N) : rd (option dentry) :=
  ask* b := ask (offset + base) 14 in
  match deserialize_dirent_node b offset with
  | None => Done (Ok None)
  | Some e =>
      ask* name := ask (offset + 14 + base) (d_namelen (d_dirent (e_node e))) in
      Done (Ok (Some (with_name e name)))
  end.
(** read.rs:156-167 [root_dirent]. *)
Definition l_root_dirent (base : N) (v : volume) : rd (option dentry) :=
  if region_is_empty (v_root v) then Done (Err DirectoryEmpty)
  else ask* off := Done (region_offset (v_root v) 0) in l_dirent base off.
(** read.rs:182-205 and 170-206 [find_dirent]. *)
Fixpoint l_find_loop (fuel : nat) (base : N) (r : region) (name : str) (offset : N) : rd dentry :=
  match fuel with
  | O => Done OutOfFuel
  | S fuel =>
      ask* o := l_dirent base offset in
      ask* e := Done (ok_or o DoesNotExist) in
      let next (p : N) :=
        if p =? 0 then Done (Err DoesNotExist)
        else ask* offset := Done (region_offset r (4 * p)) in l_find_loop fuel base r name offset in
      match cmp_ignore_case_utf8 name (name_str e) with
      | Eq => Done (Ok e)
      | Lt => next (d_left (e_node e))
      | Gt => next (d_right (e_node e))
      end
  end.
Definition l_find (fuel : nat) (base : N) (r : region) (name : str) : rd dentry :=
  if region_is_empty r then Done (Err DirectoryEmpty)
  else ask* offset := Done (region_offset r 0) in l_find_loop fuel base r name offset.
(** read.rs:208-246 [walk_path]. *)
Fixpoint l_segments (fuel : nat) (base : N) (r : region) (segs : list str) : rd dentry :=
  match segs with
  | [] => Done (Panic PUnreachable)
  | s :: segs' =>
      ask* e := l_find fuel base r s in
      match segs' with
      | [] => Done (Ok e)
      | _ => ask* t := Done (ok_or (dirent_table (d_dirent (e_node e))) IsNotDirectory) in
             l_segments fuel base t segs'
      end
  end.
Definition l_path (fuel : nat) (base : N) (r : region) (path : str) : rd dentry :=
  match path with
  | [] => Done (Err NoDirent)
  | _ => if str_eqb path [SLASH] then Done (Err NoDirent)
         else l_segments fuel base r (split_terminator (trim_start path))
  end.
(** read.rs:283-322 [walk_dirent_tree]. *)
Fixpoint l_walk_loop (fuel : nat) (base : N) (r : region) (stack : list N) (dirents : list dentry) : rd (list dentry) :=
  match stack with
  | [] => Done (Ok dirents)
  | top :: stack =>
      match fuel with
      | O => Done OutOfFuel
      | S fuel =>
          ask* offset := Done (region_offset r top) in
          ask* o := l_dirent base offset in
          match o with
          | None => l_walk_loop fuel base r stack dirents
          | Some e =>
              let l := d_left (e_node e) in
              let stack := if (negb (l =? 0) && negb (l =? 0xffff)) then 4 * l :: stack else stack in
              let r' := d_right (e_node e) in
              let stack := if (negb (r' =? 0) && negb (r' =? 0xffff)) then 4 * r' :: stack else stack in
              l_walk_loop fuel base r stack (dirents ++ [e])
          end
      end
  end.
Definition l_walk (fuel : nat) (base : N) (r : region) : rd (list dentry) :=
  if region_is_empty r then Done (Ok []) else l_walk_loop fuel base r [0] [].
(** read.rs:324-353 [file_tree]. *)
Fixpoint l_tree_loop (fuel : nat) (base : N) (stack : list (str * region)) (out : list (str * dentry)) : rd (list (str * dentry)) :=
  match stack with
  | [] => Done (Ok out)
  | (parent, tree) :: stack =>
      match fuel with
      | O => Done OutOfFuel
      | S fuel =>
          ask* children := l_walk fuel base tree in
          l_tree_loop fuel base (push_dirs parent children stack) (out ++ map (fun e => (parent, e)) children)
      end
  end.
Definition l_tree (fuel : nat) (base : N) (r : region) : rd (list (str * dentry)) := l_tree_loop fuel base [([], r)] [].
(** read.rs:18-35 [next_sector], 37-79 [next_entry]. *)
Definition l_next_sector (base : N) (s : scan) : rd scan :=
  let sector := s_sector s + 1 in
  if s_end s <=? sector then Done (Ok (mkScan sector (s_buf s) 0 (s_end s)))
  else ask* b := ask (sector * SECTOR_SIZE + base) 2048 in Done (Ok (mkScan sector b 0 (s_end s))).
Fixpoint l_next_loop (fuel : nat) (base : N) (s : scan) : rd (option dentry * scan) :=
  match fuel with
  | O => Done OutOfFuel
  | S fuel =>
      ask* _ := Done (rassert (s_offset s + 14 <? SECTOR_SIZE)) in
      let name_offset := s_offset s + 14 in
      match deserialize_dirent_node (slice (s_buf s) (s_offset s) 14) (s_offset s) with
      | None =>
          if s_sector s + 1 <? s_end s
          then ask* s := l_next_sector base s in l_next_loop fuel base s
          else Done (Ok (None, s))
      | Some e =>
          let name_len := d_namelen (d_dirent (e_node e)) in
          ask* _ := Done (rassert (name_offset + name_len <=? SECTOR_SIZE)) in
          let e := with_name e (slice (s_buf s) name_offset name_len) in
          let offset := name_offset + name_len in
          let offset := offset + (4 - offset mod 4) mod 4 in
          let s := mkScan (s_sector s) (s_buf s) offset (s_end s) in
          ask* s := (if SECTOR_SIZE <=? offset + 14 then l_next_sector base s else Done (Ok s)) in
          Done (Ok (Some e, s))
      end
  end.
Definition l_next (fuel : nat) (base : N) (s : scan) : rd (option dentry * scan) :=
  if s_end s <=? s_sector s then Done (Ok (None, s)) else l_next_loop fuel base s.
(** read.rs:248-281 [scan_dirent_tree], and a consumer as in M_Read. *)
Definition l_scan_start (base : N) (r : region) : rd scan :=
  if region_is_empty r then Done (Ok (mkScan 0 (fill 2048 xff) 0 0))
  else
    ask* off := Done (region_offset r 0) in
    ask* b := ask (off + base) 2048 in
    Done (Ok (mkScan (r_sector r) b 0 (r_sector r + (r_size r + 2047) / 2048))).
Fixpoint l_collect (fuel : nat) (base : N) (s : scan) : rd (list dentry) :=
  match fuel with
  | O => Done OutOfFuel
  | S fuel' =>
      ask* (o, s) := l_next fuel base s in
      match o with
      | None => Done (Ok [])
      | Some e => ask* es := l_collect fuel' base s in Done (Ok (e :: es))
      end
  end.
Definition l_scan (fuel : nat) (base : N) (r : region) : rd (list dentry) := ask* s := l_scan_start base r in l_collect fuel base s.
(** layout.rs:249-268 [read_data_all], 270-292 [read_data_offset]. *)
Definition l_data (base : N) (x : ddata) : rd (list byte) :=
  let size := r_size (d_region x) in
  if size =? 0 then Done (Ok [])
  else ask* off := Done (region_offset (d_region x) 0) in ask (off + base) size.
Definition l_data_at (base : N) (x : ddata) (size offset : N) : rd (list byte) :=
  let size := N.min size (r_size (d_region x)) in
  if r_size (d_region x) =? 0 then Done (Ok (fill size x00))
  else ask* off := Done (region_offset (d_region x) offset) in ask (off + base) size.
(** checksum.rs:11-42 [checksum]. *)
Fixpoint l_steps (base : N) (h : list byte) (m : list (str * dentry)) : rd (list byte) :=
  match m with
  | [] => Done (Ok h)
  | x :: m =>
      let h := h ++ as_bytes (fst x) in
      if is_directory (d_dirent (e_node (snd x))) then l_steps base h m
      else ask* data := l_data base (d_dirent (e_node (snd x))) in l_steps base (h ++ data) m
  end.
Definition l_checksum (H : list byte -> list byte) (fuel : nat) (base : N) (v : volume) : rd (list byte) :=
  ask* tree := l_tree fuel base (v_root v) in
  ask* h := l_steps base [] (checksum_map tree) in
  Done (Ok (H h)).
