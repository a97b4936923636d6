(** Model of xdvdfs-cli cmd_build_image.rs: the build-image and image-spec commands.

    The TOML parser and printer (crate toml) are not modelled: reading a spec is an
    arbitrary function [toml] and writing one an arbitrary function [to_toml].
    Building the overlay and packing it are given by [mk] and [pk], so that they
    may also fail; M_Remap and M_Stdfs give the real ones at the end. The checks of
    the argument parser (-f excludes -m and -O) are not modelled. *)
From Verif Require Import M_Base M_Util M_Layout M_Read M_Img M_Dev M_Xfs M_Trie M_Remap M_Cli M_Unpack M_Exiso M_Stdfs M_Host.
From Coq Require Import Init.Byte.
Local Open Scope N_scope.

Definition COLON : N := 58.

(** [str::split] at a character. *)
Fixpoint split_at (x : N) (s : str) : list str :=
  match s with
  | [] => [[]]
  | c :: s => if c =? x then [] :: split_at x s
              else match split_at x s with p :: ps => (c :: p) :: ps | [] => [[c]] end
  end.

(** cmd_build_image.rs:165-179 and 256-271: one map rule. *)
Definition parse_rule (rule : str) : res herr (str * str) :=
  match split_at COLON rule with
  | [] => Err HRefused
  | host :: image =>
      match image with
      | [] => if M_Remap.starts_with [BANG] host then Ok (host, []) else Err HRefused
      | i :: _ => Ok (host, i)
      end
  end.

(** ** Image specs *)
(** The values of a TOML table, as far as they matter. *)
Inductive tvalue := TString (s : str) | TOther.
(** cmd_build_image.rs:108-117 [ImageInfo] and [ImageSpec]; the table keeps the order
    of insertion. *)
Record spec := mkSpec { s_output : option str; s_rules : option (list (str * tvalue)) }.

(** cmd_build_image.rs:119-135 [deserialize_overlay_config]. *)
Definition spec_rules (s : spec) : res herr config :=
  match s_rules s with
  | None => Ok []
  | Some rules => mapM (fun kv => match snd kv with TString v => Ok (fst kv, v) | TOther => Err HRefused end) rules
  end.

(** [toml::Table::insert]: a key that is present keeps its place. *)
Fixpoint table_insert (l : list (str * tvalue)) (k : str) (v : tvalue) : list (str * tvalue) :=
  match l with
  | [] => [(k, v)]
  | (k', v') :: l => if str_eqb k' k then (k', v) :: l else (k', v') :: table_insert l k v
  end.

(** cmd_build_image.rs:253-287: the spec for the arguments of image-spec from. An
    absent and an empty metadata table are the same here. *)
Definition spec_from (map_rules : option (list str)) (output : option str) : res herr spec :=
  let* rules := match map_rules with
                | Some l => let* t := foldM (fun t rule => let* (h, i) := parse_rule rule in Ok (table_insert t h (TString i))) [] l in Ok (Some t)
                | None => Ok None
                end in
  Ok (mkSpec output rules).

(** ** Paths as strings *)
(** The components of std::path: a leading "." of a relative path is one. *)
Definition rcomps (s : str) : list str :=
  match split_slash s with c :: _ => if is_dot c then c :: pcomps s else pcomps s | [] => [] end.
Definition render (abs : bool) (cs : list str) : str :=
  let body := match cs with [] => [] | c :: cs => c ++ concat (map (fun n => SLASH :: n) cs) end in
  if abs then SLASH :: body else body.
(** [Path::parent], in its shortest spelling. *)
Definition parent_path (s : str) : option str :=
  match split_last (rcomps s) with Some (i, _) => Some (render (is_absolute s) i) | None => None end.
(** img.rs:93-107 [with_extension] for a directory; nothing is added to a path that
    ends in "." or "..". *)
Definition dir_with_extension (s ext : str) : str :=
  match split_last (rcomps s) with
  | Some (i, n) => if is_dot n || is_dotdot n then s else render (is_absolute s) (i ++ [M_Exiso.with_extension n ext true])
  | None => s
  end.
(** [Path::is_dir]. *)
Definition is_dir_path (h : host) (cwd : list str) (s : str) : bool :=
  match canonicalize h cwd s with Ok p => match h p with Some HDir => true | _ => false end | _ => false end.
(** [std::fs::read_to_string], up to the check of the encoding. *)
Definition read_file (h : host) (cwd : list str) (s : str) : res herr (list byte) :=
  let* p := canonicalize h cwd s in
  match h p with Some (HFile b) => Ok b | Some HDir => Err HIsADirectory | None => Err HNotFound end.

(** ** cmd_build_image.rs:138-248 [cmd_build_image] *)
Record build_args := mkBuildArgs {
  b_spec : option str;              (* -f *)
  b_map : option (list str);        (* -m *)
  b_output : option str;            (* -O *)
  b_dry_run : bool;                 (* -D *)
  b_source : option str;
  b_image : option str
}.

Definition TOML : str := [120; 100; 118; 100; 102; 115; 46; 116; 111; 109; 108].   (* "xdvdfs.toml" *)
Definition XISO : str := [120; 105; 115; 111; 46; 105; 115; 111].                  (* "xiso.iso" *)

(** cmd_build_image.rs:139-160: the path of the spec and of the source. *)
Definition build_paths (h : host) (cwd : list str) (a : build_args) : res herr (str * str) :=
  let source := match b_source a with Some s => s | None => pstr cwd end in
  let* (spec, source) :=
    if is_dir_path h cwd source then Ok (pjoin source TOML, source)
    else let* p := ok_or (parent_path source) HRefused in Ok (source, p) in
  Ok (match b_spec a with Some s => s | None => spec end, source).

Section Build.
Context {O : Type} (toml : list byte -> option spec).
Context (mk : host -> list str -> config -> res herr O) (pk : host -> list str -> O -> list byte * res herr unit).

(** cmd_build_image.rs:162-191: the rules, and the spec that was read. *)
Definition build_rules (h : host) (cwd : list str) (a : build_args) (spec_path : str) : res herr (config * option spec) :=
  let* rules := match b_map a with Some l => mapM parse_rule l | None => Ok [] end in
  match b_map a with
  | None =>
      if exists_at h cwd spec_path
      then let* b := read_file h cwd spec_path in
           let* s := ok_or (toml b) HRefused in
           let* more := spec_rules s in
           Ok (rules ++ more, Some s)
      else Ok (rules, None)
  | Some _ => Ok (rules, None)
  end.

(** cmd_build_image.rs:195-208: the path of the image. *)
Definition build_image_path (a : build_args) (s : option spec) (source : str) : str :=
  match b_image a with
  | Some p => p
  | None => match s with
            | Some (mkSpec (Some output) _) => pjoin source output
            | _ => dir_with_extension source XISO
            end
  end.

(** ... and the rest; the result of a dry run is what it prints. *)
Definition build_image (cwd : list str) (a : build_args) : hprog (option O) :=
  hbind (hres (fun w =>
    let* (spec_path, source) := build_paths (w_fs w) cwd a in
    let* (rules, s) := build_rules (w_fs w) cwd a spec_path in
    match rules with
    | [] => Err HRefused
    | _ => let* root := canonicalize (w_fs w) cwd source in
           let* o := mk (w_fs w) root rules in
           Ok (root, o, build_image_path a s source)
    end)) (fun '(root, o, image) =>
  if b_dry_run a then hret (Some o)
  else hbind (open_trunc cwd image) (fun p w =>
       let (b, r) := pk (w_fs w) root o in
       (after w (hset (w_fs w) p (HFile b)) 0, let* _ := r in Ok None))).
End Build.

(** ** The overlay of a host directory *)
Definition std_overlay (fuel : nat) (m : build) (wax : str -> option glob) (ls : lister) : host -> list str -> config -> res herr (trie mapent) :=
  fun h root cfg => match remap_new fuel m wax (host_fs h ls root) cfg with
                    | Ok t => Ok t | Err _ => Err HPack | Panic p => Panic p | OutOfFuel => OutOfFuel
                    end.
(** The image file is not seen by the run that writes it. *)
Definition std_overlay_packer (fuel : nat) (m : build) (ls : lister) : host -> list str -> trie mapent -> list byte * res herr unit :=
  fun h root t =>
    let '((img, _), r) := create_xdvdfs_image fuel m file_wdev (overlay t (host_fs h ls root)) ([], []) in pack_result (img, r).
