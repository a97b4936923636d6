(** Properties C77, C78, C100, C109: packing a directory of the host, unpacking it again,
    and packing from an image
    (cmd_pack.rs, write/fs/stdfs.rs, cmd_unpack.rs). *)
From Verif Require Import M_Base M_Util M_Layout M_Read M_Img M_Dev M_Xfs M_Remap M_Cli M_Host M_Unpack M_Exiso M_Stdfs.
From Verif Require Import S_Avl S_Codec S_Table S_Read S_Img S_Dev S_Xfs S_Check S_Cli S_Unpack S_Exiso S_Stdfs.
From Verif Require Import P_Vm.
From Verif Require Import P_Base P_Witness P_More P_Src P_Repack P_Host P_Unpack P_Exiso P_Stdfs P_Extra P_Progress.
From Coq Require Import Init.Byte Strings.String.
From Coq Require Import List.
Local Close Scope string_scope.
Local Open Scope N_scope.

(** C77: packing a directory ends with an image of it in the output file if it is
    representable and with an error otherwise; nothing else changes. *)
Theorem c77_pack_directory :
  forall m ls cwd src image i w p t, Forall unix_name cwd -> canonicalize (w_fs w) cwd src = Ok p -> hosts (w_fs w) ls p t -> source t ->
  output_for p image i -> ready_for_file cwd i w -> ~ leads_to p (place cwd i) ->
  exists w' o img, returns (fun fuel => cmd_pack cwd (std_packer ls fuel m) src image w) (w', o)
   /\ w_left w' = None /\ w_fs w' (place cwd i) = Some (HFile img) /\ (forall q, q <> place cwd i -> w_fs w' q = w_fs w q)
   /\ (representable m t /\ o = Ok tt /\ packs m t img \/ ~ representable m t /\ o = Err HPack).
Proof. exact c77_lemma. Qed.
Print Assumptions c77_pack_directory.

(** d/a ("hi"), d/S/c ("x"). *)
Definition c77_tree : ftree := FDir [(text "a", FFile [x68; x69]); (text "S", FDir [(text "c", FFile [x78])])].
Definition c77_world : world := planted (text "d") c77_tree.
Definition c77_run := cmd_pack [] (std_packer (planted_ls c77_tree) 10 Debug) (text "d") None c77_world.
Example c77_example :
  source c77_tree /\ hosts (w_fs c77_world) (planted_ls c77_tree) [text "d"] c77_tree /\ canonicalize (w_fs c77_world) [] (text "d") = Ok [text "d"]
  /\ output_for [text "d"] None (text "d.iso") /\ ready_for_file [] (text "d.iso") c77_world /\ snd c77_run = Ok tt
  /\ match w_fs (fst c77_run) [text "d.iso"] with Some (HFile b) => len b | _ => 0 end = 131072.
Proof.
  assert (S : source c77_tree) by (apply source_b_ok; vm_compute; reflexivity).
  assert (U : unix_name (text "d.iso")) by (apply unix_name_b_ok; reflexivity).
  split; [exact S|]. split; [apply planted_hosts, S|]. split; [reflexivity|]. split; [right; split; [reflexivity|exists [], (text "d"); split; reflexivity]|].
  split; [apply planted_ready_file; [apply S|reflexivity|exact U|discriminate]|]. vm_all.
Qed.
(** A directory whose names differ only in case is not representable. *)
Definition c77_twice : ftree := FDir [(text "a", FFile []); (text "A", FFile [])].
Example c77_duplicate : snd (cmd_pack [] (std_packer (planted_ls c77_twice) 10 Debug) (text "d") None (planted (text "d") c77_twice)) = Err HPack.
Proof. vm_compute. reflexivity. Qed.

(** C78: packing a directory and unpacking the image elsewhere gives a copy of the
    directory, and leaves the directory as it is. *)
Theorem c78_round_trip :
  forall m ls cwd src image i dest w p t, Forall unix_name cwd -> canonicalize (w_fs w) cwd src = Ok p -> hosts (w_fs w) ls p t -> source t -> representable m t -> unix_tree t ->
  output_for p image i -> ready_for_file cwd i w -> ready_for cwd dest t w ->
  apart p (place cwd i) -> apart p (place cwd dest) -> apart (place cwd i) (place cwd dest) ->
  exists w1 img w2, returns (fun fuel => cmd_pack cwd (std_packer ls fuel m) src image w) (w1, Ok tt)
   /\ w_fs w1 (place cwd i) = Some (HFile img)
   /\ returns (fun fuel => cmd_unpack fuel cwd i img (Some dest) w1) (w2, Ok tt)
   /\ (forall q, w_fs w2 (place cwd dest ++ q) = w_fs w (p ++ q)) /\ untouched p (w_fs w) (w_fs w2).
Proof. exact c78_lemma. Qed.
Print Assumptions c78_round_trip.

Definition c78_out (w : world) : list byte := match w_fs w [text "d.iso"] with Some (HFile b) => b | _ => [] end.
Definition c78_run := cmd_unpack 20 [] (text "d.iso") (c78_out (fst c77_run)) (Some (text "e")) (fst c77_run).
Example c78_example :
  ready_for [] (text "e") c77_tree c77_world /\ unix_tree c77_tree /\ apart [text "d"] [text "d.iso"] /\ apart [text "d"] [text "e"] /\ apart [text "d.iso"] [text "e"]
  /\ snd c78_run = Ok tt
  /\ map (w_fs (fst c78_run)) [[text "e"; text "a"]; [text "e"; text "S"; text "c"]; [text "e"; text "c"]; [text "d"; text "a"]]
     = [Some (HFile [x68; x69]); Some (HFile [x78]); None; Some (HFile [x68; x69])].
Proof.
  assert (S : source c77_tree) by (apply source_b_ok; vm_compute; reflexivity).
  split; [apply planted_ready; [apply S|reflexivity|discriminate|apply unix_name_b_ok; reflexivity|discriminate]|]. split; [apply unix_tree_ok; vm_compute; reflexivity|].
  split; [apply apart_names; discriminate|]. split; [apply apart_names; discriminate|]. split; [apply apart_names; discriminate|]. vm_all.
Qed.

(** C100: packing from an image file, whose partition may be at any of the supported
    places, gives an image of the same tree if that is representable and an error
    otherwise; only the output changes. *)
Theorem c100_pack_image :
  forall m ls cwd src i w p file d v t, canonicalize (w_fs w) cwd src = Ok p -> w_fs w p = Some (HFile file) ->
  open_image file = Ok d -> read_volume d = Ok v -> scans d t (v_root v) -> source t -> latin_tree t ->
  ready_for_file cwd i w -> place cwd i <> p ->
  exists w' o img, returns (fun fuel => cmd_pack cwd (std_packer ls fuel m) src (Some i) w) (w', o)
   /\ w_fs w' (place cwd i) = Some (HFile img) /\ (forall q, q <> place cwd i -> w_fs w' q = w_fs w q)
   /\ (representable m t /\ o = Ok tt /\ packs m t img \/ ~ representable m t /\ o = Err HPack).
Proof. exact c100_lemma. Qed.
Print Assumptions c100_pack_image.
(** From a directory to d.iso, and from there to e. *)
Definition c100_run := cmd_pack [] (std_packer (planted_ls c77_tree) 100 Debug) (text "d.iso") (Some (text "e")) (fst c77_run).
Definition c100_row (x : option hnode) : res rerr (list (str * str * option N)) :=
  match x with
  | Some (HFile b) => let* v := read_volume (file_dev b) in let* out := file_tree 100 (file_dev b) (v_root v) in Ok (map entry_row out)
  | _ => Err InvalidVolume
  end.
Example c100_example :
  snd c100_run = Ok tt /\ c100_row (w_fs (fst c100_run) [text "e"]) = Ok [([], text "a", Some 2); ([], text "S", None); (text "/S", text "c", Some 1)].
Proof. vm_all. Qed.

(** C109: the file system over a host directory lists the entries of directories
    with their kinds and lengths, and fails for anything else. *)
Theorem c109_listing :
  forall h ls root p, match h (root ++ p) with
  | Some HDir => (forall n, In n (ls (root ++ p)) -> h ((root ++ p) ++ [n]) <> None) ->
      exists es, read_dir (host_fs h ls root) p = Ok es /\ map f_name es = ls (root ++ p)
       /\ forall e, In e es -> match h ((root ++ p) ++ [f_name e]) with
                               | Some HDir => f_type e = TDirectory
                               | Some (HFile b) => f_type e = TFile /\ f_len e = len b
                               | None => False
                               end
  | _ => exists e, read_dir (host_fs h ls root) p = Err e
  end.
Proof. exact c109_list. Qed.
Print Assumptions c109_listing.
(** Copying takes the bytes from the input offset, as many as there are, to the output
    offset, and no other byte of the destination changes. *)
Theorem c109_copying :
  forall h ls root p dest input output size, match h (root ++ p) with
  | Some (HFile b) => exists dest', copy_in (host_fs h ls root) p dest input output size = (dest', Ok (N.min size (len b - input)))
      /\ forall i, nth (N.to_nat i) dest' x00
           = if (output <=? i) && (i <? output + N.min size (len b - input)) then nth (N.to_nat (input + (i - output))) b x00 else nth (N.to_nat i) dest x00
  | _ => exists e, copy_in (host_fs h ls root) p dest input output size = (dest, Err e)
  end.
Proof. exact c109_copied. Qed.
Print Assumptions c109_copying.

Example c109_case :
  let fs := host_fs (w_fs c77_world) (planted_ls c77_tree) [text "d"] in
  read_dir fs [] = Ok [mkFentry (text "a") TFile 2; mkFentry (text "S") TDirectory 0]
  /\ read_dir fs [text "a"] = Err NOT_A_DIRECTORY
  /\ copy_in fs [text "a"] [x30; x31; x32] 1 1 5 = ([x30; x69; x32], Ok 1)
  /\ copy_in fs [text "S"] [x30; x31; x32] 1 1 5 = ([x30; x31; x32], Err IS_A_DIRECTORY).
Proof. cbv zeta. vm_all. Qed.
