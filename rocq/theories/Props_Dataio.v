(** Property theorems about primitives, bit fields, flags, enumerations, hex
    dumps, colours and text: C12-C15, C41, C53, C60. *)
From Coq Require Import ZArith String List Bool Lia.
From Verif Require Import Base Model_Text Model_Dataio Spec_Dataio Spec_Text Proof_Dataio Proof_Utf16.
Import ListNotations.
Open Scope Z_scope.

(** C12 *)
Theorem C12_bits : forall lsb msb v i, 0 <= lsb <= msb -> 0 <= i ->
  Z.testbit (get_int_value lsb msb v) i = (i <=? msb - lsb) && Z.testbit v (lsb + i).
Proof. exact bitfield_bits. Qed.
Print Assumptions C12_bits.

Theorem C12_range : forall lsb msb v, 0 <= lsb <= msb ->
  0 <= get_int_value lsb msb v < 2 ^ (msb - lsb + 1).
Proof. exact bitfield_range. Qed.
Print Assumptions C12_range.

Theorem C12_tiling_determines_word : forall fs w v1 v2, tiles 0 fs w ->
  0 <= v1 < 2 ^ w -> 0 <= v2 < 2 ^ w ->
  Forall (fun f => get_int_value (fst f) (snd f) v1 = get_int_value (fst f) (snd f) v2) fs ->
  v1 = v2.
Proof. exact tiling_determines. Qed.
Print Assumptions C12_tiling_determines_word.

(** A field above the storage width (BinData 'access', bits 16-17 of a 16-bit
    word) always reads 0. *)
Theorem C12_beyond_width : forall lsb msb v w, 0 <= w <= lsb -> lsb <= msb -> 0 <= v < 2 ^ w ->
  get_int_value lsb msb v = 0.
Proof. exact bitfield_beyond. Qed.
Print Assumptions C12_beyond_width.

Example C12_case : get_int_value 2 5 0xb7 = 0xd /\ get_int_value 30 31 (-1) = 3 /\
  tiles 0 [(0, 3); (4, 4); (5, 31)] 32.
Proof.
  split; [reflexivity|]. split; [reflexivity|].
  repeat (apply tiles_cons; [lia|]). apply tiles_nil.
Qed.

(** C13 *)
Theorem C13_parsed_as_written : forall args flds,
  parse_flags_args args = (flds, Finished) <->
  exists es, args = declared es /\ flds = map entry_field es.
Proof. exact flags_parse_iff. Qed.
Print Assumptions C13_parsed_as_written.

Theorem C13_other_shapes_rejected : forall args, (forall es, args <> declared es) ->
  exists flds, parse_flags_args args = (flds, Failed AssertionError) /\
               make_flags args = Raise AssertionError.
Proof. exact flags_reject. Qed.
Print Assumptions C13_other_shapes_rejected.

Theorem C13_fields_of_type : forall es,
  exists d, make_flags (declared es) = Ok d /\
    (forall n, dict_get n d = last_named n (map entry_field es)) /\
    (NoDup (map fe_name es) -> d = map entry_field es).
Proof. exact flags_type_fields. Qed.
Print Assumptions C13_fields_of_type.

Example C13_case :
  let es := [mkEntry 0 None None "inline"; mkEntry 3 (Some 4) (Some 7) "vrelto"; mkEntry 5 None (Some 8) "x";
             mkEntry 6 (Some 9) None "y"] in
  declared es = [AInt 0; AName "inline"; AInt 3; AInt 4; AType 7; AName "vrelto"; AInt 5; AType 8; AName "x";
                 AInt 6; AInt 9; AName "y"] /\
  make_flags (declared es) = Ok (map entry_field es) /\
  make_flags [AInt 0; AInt 1; AInt 2; AName "x"] = Raise AssertionError.
Proof. repeat split; reflexivity. Qed.

(** C14 *)
Theorem C14_enum : forall items more,
  (NoDup (map fst (enum_pairs items more)) ->
   exists st, make_enum items more = Ok st /\
     forall v, enum_int (enum_call st v) = v /\
               enum_name st (enum_call st v) = first_name (enum_pairs items more) v /\
               (enum_call st v = Declared v <-> In v (map snd (enum_pairs items more))) /\
               enum_call_obj st (enum_call st v) = enum_call st v /\
               enum_call st (enum_int (enum_call st v)) = enum_call st v) /\
  (~ NoDup (map fst (enum_pairs items more)) -> make_enum items more = Raise AssertionError).
Proof. exact enum_correct. Qed.
Print Assumptions C14_enum.

Example C14_case :
  enum_pairs ["A"; "B"]%string [("C"%string, 7); ("D"%string, 1)] =
    [("A"%string, 0); ("B"%string, 1); ("C"%string, 7); ("D"%string, 1)] /\
  (exists st, make_enum ["A"; "B"]%string [("C"%string, 7); ("D"%string, 1)] = Ok st /\
     enum_name st (enum_call st 1) = Some "B"%string /\ enum_name st (enum_call st 5) = None /\
     enum_call st 5 = Fresh 5).
Proof. split; [reflexivity|]. eexists. split; [reflexivity|]. repeat split; reflexivity. Qed.

(** C15 *)
Theorem C15_read_number : forall f d rest pos, (0 < fmt_width f)%nat ->
  all_bytes d -> List.length d = fmt_width f ->
  exists v, prim_read f (mkStream (d ++ rest) pos) =
              (Ok v, mkStream rest (pos + Z.of_nat (fmt_width f))) /\
    fmt_range f v /\ number_bytes (fmt_width f) v = d /\
    forall v', fmt_range f v' -> number_bytes (fmt_width f) v' = d -> v' = v.
Proof. exact prim_read_exact. Qed.
Print Assumptions C15_read_number.

Theorem C15_read_back : forall f v rest pos, (0 < fmt_width f)%nat -> fmt_range f v ->
  prim_read f (mkStream (number_bytes (fmt_width f) v ++ rest) pos) =
  (Ok v, mkStream rest (pos + Z.of_nat (fmt_width f))).
Proof. exact prim_read_of_number. Qed.
Print Assumptions C15_read_back.

Theorem C15_exhausted : forall f pos,
  prim_read f (mkStream [] pos) = (Raise (Eof pos), mkStream [] pos).
Proof. exact prim_read_eof. Qed.
Print Assumptions C15_exhausted.

Theorem C15_partial_number : forall f b pos, 0 < zlen b < Z.of_nat (fmt_width f) ->
  prim_read f (mkStream b pos) = (Raise StructError, mkStream [] (pos + zlen b)).
Proof. exact prim_read_cut. Qed.
Print Assumptions C15_partial_number.

(** The widths of the named types. *)
Theorem C15_named_types : 
  map (fun f => (fmt_width f, match f with FmtInt _ => true | _ => false end))
      [UINT32; INT32; UINT16; INT16; UINT8; INT8; WORD; BYTE; WCHAR; HWPUNIT; SHWPUNIT; HWPUNIT16; DOUBLE] =
  [(4, false); (4, true); (2, false); (2, true); (1, false); (1, true); (2, false); (1, false); (2, false);
   (4, false); (4, true); (2, true); (8, false)]%nat.
Proof. reflexivity. Qed.
Print Assumptions C15_named_types.

Example C15_case : fst (prim_read INT16 (open_bytes [0xfe; 0xff; 7])) = Ok (-2) /\
  fst (prim_read UINT32 (open_bytes [1; 2; 3; 4])) = Ok 0x04030201 /\ fmt_range INT16 (-32768).
Proof. repeat split; vm_compute; congruence. Qed.

(** C41 *)
Theorem C41_hexdump_lossless : forall data, all_bytes data ->
  exists chunks, snd (dumpbytes data false) = Finished /\
    map parse_hex_line (fst (dumpbytes data false)) = map Some chunks /\
    concat chunks = data /\ cut16_ok chunks /\ (forall c, In c chunks -> c = [] -> data = []).
Proof. exact hexdump_plain. Qed.
Print Assumptions C41_hexdump_lossless.

(** With the offset column, each line also shows its own byte offset. *)
Theorem C41_hexdump_with_offsets : forall data, all_bytes data ->
  exists chunks header, snd (dumpbytes data true) = Finished /\
    fst (dumpbytes data true) = header :: tl (fst (dumpbytes data true)) /\
    map (parse_offset_line 0) (tl (fst (dumpbytes data true))) =
      map (fun p => Some (16 * Z.of_nat (fst p), snd p)) (combine (seq 0 (List.length chunks)) chunks) /\
    concat chunks = data /\ cut16_ok chunks.
Proof. exact hexdump_crust. Qed.
Print Assumptions C41_hexdump_with_offsets.

Example C41_case : dumpbytes [1; 0xab; 255] false = ([zs "01 ab ff"], Finished) /\
  List.length (fst (dumpbytes (map Z.of_nat (seq 0 33)) true)) = 4%nat /\
  all_bytes (map Z.of_nat (seq 0 33)).
Proof. repeat split; try reflexivity. repeat constructor; lia. Qed.

(** C53 *)
Theorem C53_colour_parts : forall b0 b1 b2 b3, is_byte b0 -> is_byte b1 -> is_byte b2 -> is_byte b3 ->
  forall pos rest, exists v,
    prim_read INT32 (mkStream ([b0; b1; b2; b3] ++ rest) pos) = (Ok v, mkStream rest (pos + 4)) /\
    color_r v = b0 /\ color_g v = b1 /\ color_b v = b2 /\ color_a v = b3 /\
    parse_color (color_str v) = Some (b0, b1, b2).
Proof. exact color_parts. Qed.
Print Assumptions C53_colour_parts.

Example C53_case : color_str (-1) = zs "#ffffff" /\ color_a (-1) = 255 /\ color_str 0x00332211 = zs "#112233".
Proof. repeat split; vm_compute; reflexivity. Qed.

(** C60 *)
Theorem C60_utf16_decoding : forall b cs, all_bytes b ->
  utf16le_decode b = Ok cs <-> (b = utf16le_bytes cs /\ Forall scalar cs).
Proof. exact utf16le_decode_iff. Qed.
Print Assumptions C60_utf16_decoding.

Theorem C60_utf16_error : forall b e, utf16le_decode b = Raise e -> e = UnicodeDecodeError.
Proof. exact utf16le_decode_error. Qed.
Print Assumptions C60_utf16_error.

Theorem C60_string_roundtrip : forall cs rest pos, Forall scalar cs -> zlen (utf16_units cs) < 65536 ->
  bstr_read (mkStream (number_bytes 2 (zlen (utf16_units cs)) ++ utf16le_bytes cs ++ rest) pos) =
  (Ok cs, mkStream rest (pos + 2 + zlen (utf16le_bytes cs))).
Proof. exact bstr_roundtrip. Qed.
Print Assumptions C60_string_roundtrip.

Theorem C60_string_cut_silently : forall n b pos, 0 < n < 65536 -> 0 < zlen b < 2 * n ->
  bstr_read (mkStream (number_bytes 2 n ++ b) pos) = (utf16le_decode b, mkStream [] (pos + 2 + zlen b)).
Proof. exact bstr_cut_silently. Qed.
Print Assumptions C60_string_cut_silently.

Example C60_case : utf16le_bytes [0xAC00; 0x1F600; 65] = [0; 0xAC; 0x3D; 0xD8; 0; 0xDE; 65; 0] /\
  Forall scalar [0xAC00; 0x1F600; 65] /\
  fst (bstr_read (open_bytes [2; 0; 65; 0; 0x00; 0xAC; 9])) = Ok [65; 0xAC00].
Proof.
  split; [vm_compute; reflexivity|]. split; [|vm_compute; reflexivity].
  repeat constructor; unfold scalar; lia.
Qed.
