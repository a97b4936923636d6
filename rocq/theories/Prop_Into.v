(** Properties C153 and C154: reading into a buffer (layout.rs: read_data), and the
    first entry of an image (read.rs: root_dirent). *)
From Verif Require Import M_Base M_Util M_Layout M_Read M_Img M_Cli.
From Verif Require Import S_Read S_Img S_Check S_Cli.
From Verif Require Import P_Base P_Vm P_Witness P_Cli P_Src P_Into.
From Coq Require Import Init.Byte Strings.String.
From Coq Require Import List.
Local Close Scope string_scope.
Local Open Scope N_scope.

(** C153, partial: a buffer that is not larger than the file gets the beginning of the
    file. Missing: larger buffers. *)
Theorem c153_buffer_partial :
  forall img base x b buf, b <> [] -> read_data_all (offset_dev (file_dev img) base) x = Ok b -> len buf <= len b ->
  read_data (offset_dev (file_dev img) base) x buf = Ok (firstn (length buf) b).
Proof. exact c153_lemma. Qed.
Print Assumptions c153_buffer_partial.
(** An empty file leaves the buffer as it is; in all cases the buffer keeps its length. *)
Theorem c153_empty : forall d x buf, r_size (d_region x) = 0 -> read_data d x buf = Ok buf.
Proof. exact c153_empty_lemma. Qed.
Print Assumptions c153_empty.
Theorem c153_size : forall d x buf b, lawful d -> read_data d x buf = Ok b -> len b = len buf.
Proof. exact c153_size_lemma. Qed.
Print Assumptions c153_size.

Example c153_example :
  read_data (file_dev c27_img) (mkDdata (mkRegion 1 3) 32 0) [x00; x00] = Ok [x01; x02]
  /\ read_data (file_dev c27_img) (mkDdata (mkRegion 1 3) 32 0) [x00; x00; x00] = Ok [x01; x02; x03]
  /\ read_data (file_dev c27_img) (mkDdata (mkRegion 9 0) 32 0) [x07; x08] = Ok [x07; x08].
Proof. vm_all. Qed.

(** Finding: a larger buffer gets what lies behind the file, too: here [x04]; and
    at the end of the image, reading fails although the whole file is there. *)
Theorem c153_buffer_refuted :
  exists img x b buf, read_data_all (file_dev img) x = Ok b /\ b = [x01; x02; x03]
    /\ read_data (file_dev img) x buf = Ok (b ++ [x04])
    /\ read_data (file_dev img) x (buf ++ [x00]) = Err (IOError UnexpectedEof).
Proof. exists c27_img, (mkDdata (mkRegion 1 3) 32 0), [x01; x02; x03], [x00; x00; x00; x00]. vm_all. Qed.
Print Assumptions c153_buffer_refuted.

(** C154: root_dirent gives an entry of the root directory, the one that its table
    starts with, and none exactly if the directory is empty. *)
Theorem c154_root_entry :
  forall d v cs, lawful d -> contains d (FDir cs) (v_root v) ->
  match root_dirent d v with
  | Ok (Some e) => e_offset e = 2048 * r_sector (v_root v) /\ stored d e
                   /\ exists t, In (name_str e, t) cs /\ is_dir e = is_fdir t /\ contains d t (region_of e)
  | Ok None => cs = [] /\ 0 < r_size (v_root v)
  | Err DirectoryEmpty => cs = [] /\ r_size (v_root v) = 0
  | _ => False
  end.
Proof. exact c154_lemma. Qed.
Print Assumptions c154_root_entry.

(** A root directory with the entries "bb" and "A", and empty ones. *)
Example c154_example :
  (let* o := root_dirent (file_dev c31_img) (volume_new root33) in Ok (option_map name_str o)) = Ok (Some (text "bb"))
  /\ root_dirent (file_dev (image_of [] [])) (volume_new root33) = Ok None
  /\ root_dirent (file_dev c31_img) (volume_new (mkRegion 33 0)) = Err DirectoryEmpty.
Proof. vm_all. Qed.
