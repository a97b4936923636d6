(** Model of xdvdfs-core/src/checksum.rs. *)
From Verif Require Import M_Base M_Util M_Layout M_Read.
From Coq Require Import Init.Byte.
Local Open Scope N_scope.

(** [char::encode_utf8] (core::char::methods::encode_utf8_raw). *)
Definition encode_utf8 (c : N) : list N :=
  if c <? 0x80 then [c]
  else if c <? 0x800 then [N.lor (N.land (N.shiftr c 6) 0x1F) 0xC0; N.lor (N.land c 0x3F) 0x80]
  else if c <? 0x10000 then [N.lor (N.land (N.shiftr c 12) 0x0F) 0xE0; N.lor (N.land (N.shiftr c 6) 0x3F) 0x80; N.lor (N.land c 0x3F) 0x80]
  else [N.lor (N.land (N.shiftr c 18) 0x07) 0xF0; N.lor (N.land (N.shiftr c 12) 0x3F) 0x80; N.lor (N.land (N.shiftr c 6) 0x3F) 0x80; N.lor (N.land c 0x3F) 0x80].
(** [str::as_bytes]. *)
Definition as_bytes (s : str) : list byte := map n2b (concat (map encode_utf8 s)).

(** alloc::collections::BTreeMap<String, V> as its sorted list of entries:
    [insert] replaces an existing value. *)
Fixpoint smap_insert {V} (k : str) (v : V) (m : list (str * V)) : list (str * V) :=
  match m with
  | [] => [(k, v)]
  | (k', v') :: m' => match str_cmp k k' with
                      | Eq => (k', v) :: m'
                      | Lt => (k, v) :: m
                      | Gt => (k', v') :: smap_insert k v m'
                      end
  end.

(** checksum.rs:20-23, the map from paths to entries. *)
Definition checksum_map (tree : list (str * dentry)) : list (str * dentry) :=
  fold_left (fun m x => smap_insert (fst x ++ [SLASH] ++ name_str (snd x)) (snd x) m) tree [].

(** checksum.rs:25-34, one entry: the bytes passed to [hasher.update]. *)
Definition checksum_step (d : dev) (h : list byte) (x : str * dentry) : res rerr (list byte) :=
  let h := h ++ as_bytes (fst x) in
  if is_directory (d_dirent (e_node (snd x))) then Ok h
  else let* data := read_data_all d (d_dirent (e_node (snd x))) in Ok (h ++ data).

(** checksum.rs:11-42 [checksum]. The hasher is its input so far; [H] is the
    function that Sha3_256 computes from all bytes it was updated with. *)
Definition checksum (H : list byte -> list byte) (fuel : nat) (d : dev) (v : volume) : res rerr (list byte) :=
  let* tree := file_tree fuel d (v_root v) in
  let* h := foldM (checksum_step d) [] (checksum_map tree) in
  Ok (H h).
