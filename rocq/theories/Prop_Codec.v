(** Properties C05-C08 and C56: names and on-disk records (layout.rs, util.rs). *)
From Verif Require Import M_Base M_Util M_Layout M_Avl M_Dirtab S_Avl S_Codec P_Layout P_Codec.
From Coq Require Import Init.Byte.
Local Open Scope N_scope.

(** C05: three-way comparison is the lexicographic order of upper-cased names. *)
Theorem c05_name_comparison :
  forall a b,
    (cmp_ignore_case_utf8 a b = Lt <-> lex_lt (map upper a) (map upper b))
    /\ (cmp_ignore_case_utf8 a b = Eq <-> map upper a = map upper b)
    /\ (cmp_ignore_case_utf8 a b = Gt <-> lex_lt (map upper b) (map upper a)).
Proof. exact name_order. Qed.
Print Assumptions c05_name_comparison.

Theorem c05_name_comparison_total_order : total_order cmp_ignore_case_utf8.
Proof. exact name_total_order. Qed.
Print Assumptions c05_name_comparison_total_order.

Example c05_example :
  cmp_ignore_case_utf8 [97; 95] [65; 98] = Gt            (* "a_" > "Ab" : '_' is above 'B' *)
  /\ cmp_ignore_case_utf8 [97; 66] [65; 98] = Eq         (* "aB" = "Ab" *)
  /\ cmp_ignore_case_utf8 [0xE9] [0xC9] = Gt.            (* only ASCII letters are folded *)
Proof. vm_compute. auto. Qed.

(** C06 *)
Theorem c06_volume_fields :
  forall v, volume_wf v ->
  let b := volume_ser v in
  length b = 2048%nat
  /\ bytes_at b 0 (v_magic0 v)
  /\ field b 20 4 (r_sector (v_root v)) /\ field b 24 4 (r_size (v_root v))
  /\ field b 28 8 (v_filetime v)
  /\ bytes_at b 36 (v_unused v)
  /\ bytes_at b 2028 (v_magic1 v).
Proof. exact volume_fields. Qed.
Print Assumptions c06_volume_fields.

Theorem c06_volume_round_trip : forall v, volume_wf v -> volume_de (volume_ser v) = v.
Proof. exact volume_de_ser. Qed.
Print Assumptions c06_volume_round_trip.

Theorem c06_volume_round_trip_bytes :
  forall b, len b = 2048 -> volume_wf (volume_de b) /\ volume_ser (volume_de b) = b.
Proof. exact (fun b H => conj (volume_de_wf b H) (volume_ser_de b H)). Qed.
Print Assumptions c06_volume_round_trip_bytes.

Example c06_example :
  volume_wf (volume_new (mkRegion 33 2048))
  /\ slice (volume_ser (volume_new (mkRegion 33 2048))) 20 8 = [x21; x00; x00; x00; x00; x08; x00; x00].
Proof. vm_compute. auto 12. Qed.

(** C07 *)
Theorem c07_dirent_fields :
  forall d,
  let b := dnode_ser d in
  length b = 14%nat
  /\ field b 0 2 (d_left d) /\ field b 2 2 (d_right d)
  /\ field b 4 4 (r_sector (d_region (d_dirent d))) /\ field b 8 4 (r_size (d_region (d_dirent d)))
  /\ field b 12 1 (d_attrs (d_dirent d)) /\ field b 13 1 (d_namelen (d_dirent d)).
Proof. exact dnode_fields. Qed.
Print Assumptions c07_dirent_fields.

Theorem c07_dirent_round_trip : forall d, dnode_wf d -> dnode_de (dnode_ser d) = d.
Proof. exact dnode_de_ser. Qed.
Print Assumptions c07_dirent_round_trip.

Theorem c07_dirent_round_trip_bytes :
  forall b, len b = 14 -> dnode_wf (dnode_de b) /\ dnode_ser (dnode_de b) = b.
Proof. exact (fun b H => conj (dnode_de_wf b H) (dnode_ser_de b H)). Qed.
Print Assumptions c07_dirent_round_trip_bytes.

Example c07_example :
  dnode_ser (mkDnode 5 0x1234 (mkDdata (mkRegion 33 70000) 32 7))
  = [x05; x00; x34; x12; x21; x00; x00; x00; x70; x11; x01; x00; x20; x07].
Proof. reflexivity. Qed.

(** C08 *)
Theorem c08_accepted_names_round_trip :
  forall x, utf8_len (x_name x) < 256 ->
  (exists bs, encode_name x = Ok bs /\ decode_1252 bs = x_name x /\ length bs = length (x_name x) /\ len bs < 256)
  \/ (encode_name x = Err WStringEncodingError /\ exists c, In c (x_name x) /\ forall b, decode_byte b <> c).
Proof. exact encode_name_total. Qed.
Print Assumptions c08_accepted_names_round_trip.

Theorem c08_too_long_iff :
  forall w name size, add_file w name size = Err FileNameTooLong <-> 255 < len (utf8_str name).
Proof. exact add_file_too_long. Qed.
Print Assumptions c08_too_long_iff.

Example c08_example :
  encode_name (mkEdata (mkDdata (mkRegion 0 0) 32 4) [0x61; 0x20AC; 0x2E]) = Ok [x61; x80; x2e]
  /\ encode_name (mkEdata (mkDdata (mkRegion 0 0) 32 4) [0x61; 0x3B1]) = Err WStringEncodingError.
Proof. vm_compute. auto. Qed.

(** C56 *)
Theorem c56_utf8_order_is_code_point_order :
  forall a b, Forall scalar a -> Forall scalar b ->
  lex_cmp N.compare (utf8_str a) (utf8_str b) = str_cmp a b.
Proof. exact utf8_order. Qed.
Print Assumptions c56_utf8_order_is_code_point_order.

Theorem c56_utf8_length : forall s, utf8_len s = len (utf8_str s).
Proof. exact utf8_length. Qed.
Print Assumptions c56_utf8_length.

Example c56_example :
  utf8_str [0x7F; 0xE9; 0x20AC; 0x1F600] = [0x7F; 0xC3; 0xA9; 0xE2; 0x82; 0xAC; 0xF0; 0x9F; 0x98; 0x80].
Proof. reflexivity. Qed.
