(** Model of xdvdfs-core/src/write/fs/remap.rs: the overlay that renames host
    paths by glob rules.

    The glob matcher (crate wax) is not modelled: a compiled pattern is an
    arbitrary function from a candidate string to its captures, and compiling a
    pattern is an arbitrary function [wax]. [wax::any] is taken to match exactly
    when one of its patterns does and never to fail once they all compiled. *)
From Verif Require Import M_Base M_Util M_Layout M_Read M_Img M_Trie.
From Coq Require Import Init.Byte.
Local Open Scope N_scope.

Definition LBRACE : N := 123.
Definition RBRACE : N := 125.
Definition DOT : N := 46.
Definition BANG : N := 33.

(** remap.rs:28-39. *)
Inductive rewrite_kind := NonDigitCharacter | UnclosedBrace.
Inductive rmerr :=
| GlobBuildingError
| InvalidRewriteSubstitution (idx : N) (rewrite : str) (kind : rewrite_kind)
| FilesystemError (e : ioerr).

(** Arithmetic on a 64-bit [usize]. *)
Definition usize_modulus : N := 18446744073709551616.   (* 2^64 *)
Definition usize {E} (m : build) (x : N) : res E N :=
  if x <? usize_modulus then Ok x else match m with Debug => Panic POverflow | Release => Ok (x mod usize_modulus) end.

(** [char::to_digit(10)]. *)
Definition to_digit (c : N) : option N := if (48 <=? c) && (c <=? 57) then Some (c - 48) else None.

(** remap.rs:115-158, the loop of [find_match_indices]. *)
Fixpoint find_indices_loop (m : build) (whole rest : str) (idx match_index : N) (matching : bool) (out : list N) : res rmerr (list N) :=
  match rest with
  | [] => if matching then Err (InvalidRewriteSubstitution (utf8_len whole - 1) whole UnclosedBrace) else Ok out
  | c :: rest =>
      if c =? LBRACE then find_indices_loop m whole rest (idx + 1) match_index true out
      else if negb matching then find_indices_loop m whole rest (idx + 1) match_index matching out
      else if c =? RBRACE then find_indices_loop m whole rest (idx + 1) 0 false (out ++ [match_index])
      else match to_digit c with
           | Some digit =>
               let* x := usize m (match_index * 10) in
               let* x := usize m (x + digit) in
               find_indices_loop m whole rest (idx + 1) x matching out
           | None => Err (InvalidRewriteSubstitution idx whole NonDigitCharacter)
           end
  end.
(** remap.rs:108-159 [find_match_indices]. *)
Definition find_match_indices (m : build) (rewrite : str) : res rmerr (list N) :=
  find_indices_loop m rewrite rewrite 0 0 false [].

(** Formatting of a [usize] in decimal. *)
Fixpoint uint_str (d : Decimal.uint) : str :=
  match d with
  | Decimal.Nil => []
  | Decimal.D0 d => 48 :: uint_str d
  | Decimal.D1 d => 49 :: uint_str d
  | Decimal.D2 d => 50 :: uint_str d
  | Decimal.D3 d => 51 :: uint_str d
  | Decimal.D4 d => 52 :: uint_str d
  | Decimal.D5 d => 53 :: uint_str d
  | Decimal.D6 d => 54 :: uint_str d
  | Decimal.D7 d => 55 :: uint_str d
  | Decimal.D8 d => 56 :: uint_str d
  | Decimal.D9 d => 57 :: uint_str d
  end.
Definition decimal (n : N) : str := uint_str (N.to_uint n).

(** remap.rs:236, [format!("{{{index}}}")]. *)
Definition placeholder (index : N) : str := LBRACE :: decimal index ++ [RBRACE].

(** [str::starts_with]. *)
Fixpoint starts_with (pat s : str) : bool :=
  match pat, s with
  | [], _ => true
  | c :: pat, d :: s => (c =? d) && starts_with pat s
  | _, _ => false
  end.

(** [str::replace] for a non-empty pattern: non-overlapping occurrences from the
    left; [skip] characters of an occurrence are still to be dropped. *)
Fixpoint replace_loop (skip : nat) (pat to s : str) : str :=
  match s with
  | [] => []
  | c :: s' =>
      match skip with
      | S k => replace_loop k pat to s'
      | O => if starts_with pat s then to ++ replace_loop (length pat - 1) pat to s' else c :: replace_loop 0 pat to s'
      end
  end.
Definition replace (s pat to : str) : str := replace_loop 0 pat to s.

(** [trim_start_matches(c)], [trim_end_matches(c)]. *)
Fixpoint trim_start_c (x : N) (s : str) : str :=
  match s with
  | c :: s' => if c =? x then trim_start_c x s' else s
  | [] => []
  end.
Definition trim_end_c (x : N) (s : str) : str := rev (trim_start_c x (rev s)).

(** wax: [Glob::matched] gives the captures, by index. *)
Definition glob := str -> option (N -> option str).

(** remap.rs:15-19 [RemapOverlayConfig]. *)
Definition config := list (str * str).

(** remap.rs:21-26 [MapEntry]. *)
Record mapent := mkMapent { m_host_path : path; m_host_entry : fentry; m_is_prefix : bool }.

Section Rules.
Context (m : build).

(** remap.rs:168-176: the patterns with the rules they come from. *)
Definition compile (wax : str -> option glob) (cfg : config) : res rmerr (list ((str * str) * glob)) :=
  mapM (fun rule => let* g := ok_or (wax (trim_start_c BANG (fst rule))) GlobBuildingError in Ok (rule, g)) cfg.

Context (keys : list ((str * str) * glob)).

(** remap.rs:188, 212-215: the candidate string of a path. *)
Definition candidate (p : path) : str := trim_start_c SLASH (as_string p).
Definition any_match (p : path) : bool := existsb (fun k => match snd k (candidate p) with Some _ => true | None => false end) keys.

(** remap.rs:186-203, one entry of a listing; the head of [dirs] is the top of
    the stack. *)
Definition visit (dir : path) (parent : option path) (st : list (path * option path) * list (path * fentry * path)) (e : fentry)
    : list (path * option path) * list (path * fentry * path) :=
  let '(dirs, matches) := st in
  let p := from_base dir (f_name e) in
  let mp := if any_match p then Some p else parent in
  (match f_type e with TDirectory => (p, mp) :: dirs | TFile => dirs end,
   match mp with Some prefix => matches ++ [(p, e, prefix)] | None => matches end).

(** remap.rs:179-204, the walk. *)
Fixpoint walk_host {D} (fuel : nat) (fs : fsys D) (dirs : list (path * option path)) (matches : list (path * fentry * path))
    : res rmerr (list (path * fentry * path)) :=
  match dirs with
  | [] => Ok matches
  | (dir, parent) :: dirs =>
      match fuel with
      | O => OutOfFuel
      | S fuel =>
          let* listing := map_err FilesystemError (read_dir fs dir) in
          let '(dirs, matches) := fold_left (visit dir parent) listing (dirs, matches) in
          walk_host fuel fs dirs matches
      end
  end.

(** remap.rs:234-237: substitution of the captures. *)
Definition substitute (caps : N -> option str) (rewrite : str) (indices : list N) : str :=
  fold_left (fun s i => replace s (placeholder i) (match caps i with Some c => c | None => [] end)) indices rewrite.

(** remap.rs:232-252: the image path of a match. *)
Definition rewrite_path (caps : N -> option str) (rewrite : str) (suffix : path) : res rmerr path :=
  let* indices := find_match_indices m rewrite in
  let s := substitute caps rewrite indices in
  let s := match suffix with [] => s | _ => trim_end_c SLASH s ++ as_string suffix end in
  Ok (path_from_iter (split_slash (trim_start_c SLASH (trim_start_c DOT s)))).

(** remap.rs:209-253, the loop over the rules. *)
Definition apply_rule (prefix suffix : path) (acc : option path) (k : (str * str) * glob) : res rmerr (option path) :=
  match snd k (candidate prefix) with
  | None => Ok acc
  | Some caps =>
      if starts_with [BANG] (fst (fst k)) then Ok None
      else match acc with
           | Some _ => Ok acc
           | None => let* p := rewrite_path caps (snd (fst k)) suffix in Ok (Some p)
           end
  end.
Definition rewritten (prefix suffix : path) : res rmerr (option path) := foldM (apply_rule prefix suffix) None keys.

(** remap.rs:256-281: inserting one path, component by component. *)
Fixpoint insert_chain (host : path) (e : fentry) (t : trie mapent) (p : path) {struct p} : res rmerr (trie mapent) :=
  match p with
  | [] => Ok t
  | c :: rest =>
      let is_prefix := match rest with [] => false | _ => true end in
      let entry := if is_prefix then mkFentry c TDirectory 0 else e in
      insert_tail t c (mkMapent host entry is_prefix) (fun sub => insert_chain host e sub rest)
  end.

(** remap.rs:207-282, one match. *)
Definition add_match (t : trie mapent) (x : path * fentry * path) : res rmerr (trie mapent) :=
  let '(p, e, prefix) := x in
  let* suffix := path_suffix p prefix in
  let* r := rewritten prefix suffix in
  match r with
  | Some r => insert_chain p e t r
  | None => Ok t
  end.
End Rules.

(** remap.rs:162-285 [new]. *)
Definition remap_new {D} (fuel : nat) (m : build) (wax : str -> option glob) (fs : fsys D) (cfg : config) : res rmerr (trie mapent) :=
  let* keys := compile wax cfg in
  let* matches := walk_host keys fuel fs [([], None)] [] in
  foldM (add_match m keys) trie_default matches.

(** Error code standing for [RemapOverlayError::NoSuchFile]. *)
Definition NoSuchFile : ioerr := IoOther 2.

(** remap.rs:320-337 [read_dir] and 350-365 [copy_file_in]. [UnderlyingError] is
    not distinguished from the error it wraps. *)
Definition overlay {D} (t : trie mapent) (fs : fsys D) : fsys D :=
  {| read_dir := fun p =>
       let* o := lookup_subdir t p in
       let* dir := ok_or o NoSuchFile in
       Ok (map (fun x => mkFentry (fst x) (f_type (m_host_entry (snd x))) (f_len (m_host_entry (snd x)))) (trie_iter dir));
     copy_in := fun p d input output size =>
       match trie_get t p with
       | Ok (Some e) => copy_in fs (m_host_path e) d input output size
       | Ok None => (d, Err NoSuchFile)
       | Err e => (d, Err e)
       | Panic k => (d, Panic k)
       | OutOfFuel => (d, OutOfFuel)
       end |}.

(** remap.rs:287-312 [dump]; the head of [queue] is the top of the stack. *)
Fixpoint dump_loop (fuel : nat) (t : trie mapent) (queue : list path) (out : list (path * path)) : res rmerr (list (path * path)) :=
  match queue with
  | [] => Ok out
  | p :: queue =>
      match fuel with
      | O => OutOfFuel
      | S fuel =>
          let* o := lookup_subdir t p in
          let* listing := unwrap o in
          let '(queue, out) := fold_left (fun st x =>
              let '(queue, out) := st in
              let q := from_base p (fst x) in
              (match f_type (m_host_entry (snd x)) with TDirectory => q :: queue | TFile => queue end,
               if m_is_prefix (snd x) then out else out ++ [(m_host_path (snd x), q)])) (trie_iter listing) (queue, out) in
          dump_loop fuel t queue out
      end
  end.
Definition dump (fuel : nat) (t : trie mapent) : res rmerr (list (path * path)) := dump_loop fuel t [[]] [].
