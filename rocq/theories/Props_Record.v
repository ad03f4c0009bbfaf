(** Property theorems about record streams: C01-C06, C55, C59. *)
From Coq Require Import ZArith String List Bool Lia.
From Verif Require Import Base Model_Text Model_Dataio Model_Record Spec_Record Proof_Text Proof_Record.
Import ListNotations.
Open Scope Z_scope.

(** C01.  For tag id and level below 1024 and any payload below 2^32 bytes the
    header is the documented wire format, and decoding it (whatever follows)
    gives back tag, level and size, and stops right after the header; the
    4-byte form is used exactly for sizes below 4095. *)
Theorem C01_header_is_wire_format : forall t l p,
  tag_ok t -> tag_ok l -> zlen p < 4294967296 ->
  encode_record_header t l p = Ok (wire_header t l (zlen p)).
Proof. exact encode_header_wire. Qed.
Print Assumptions C01_header_is_wire_format.

Theorem C01_header_roundtrip : forall t l p rest pos,
  tag_ok t -> tag_ok l -> zlen p < 4294967296 ->
  exists h, encode_record_header t l p = Ok h /\
    decode_record_header (mkStream (h ++ rest) pos) =
      (Ok (Some (t, l, zlen p)), mkStream rest (pos + zlen h)) /\
    (zlen h = 4 <-> zlen p < 4095) /\ (zlen h = 8 <-> 4095 <= zlen p).
Proof. exact header_roundtrip. Qed.
Print Assumptions C01_header_roundtrip.

Example C01_case : tag_ok 67 /\ tag_ok 3 /\ zlen (repeat_z 7 4096) < 4294967296 /\
  encode_record_header 67 3 (repeat_z 7 4096) = Ok [0x43; 0x0c; 0xf0; 0xff; 0; 0x10; 0; 0].
Proof. unfold tag_ok. repeat split; try lia; vm_compute; reflexivity. Qed.

(** Outside the range the header silently changes meaning: tag 1024 at level 0
    is written as tag 0 at level 1. *)
Theorem C01_out_of_range_tag_refuted : exists t l p h,
  encode_record_header t l p = Ok h /\
  fst (decode_record_header (open_bytes h)) <> Ok (Some (t, l, zlen p)).
Proof.
  exists 1024, 0, [1]. eexists. split; [vm_compute; reflexivity|]. vm_compute. discriminate.
Qed.
Print Assumptions C01_out_of_range_tag_refuted.

(** C02.  Any list of in-range records with non-empty payloads survives writing
    and reading. *)
Theorem C02_records_roundtrip : forall rs, Forall raw_ok rs -> Forall raw_nonempty rs ->
  exists b, dump_records (map to_record rs) = Ok b /\
            read_records (open_bytes b) = (expected 0 rs, Finished).
Proof. exact records_roundtrip. Qed.
Print Assumptions C02_records_roundtrip.

Example C02_case : let rs := [(66, 0, [1; 2; 3]); (67, 1, repeat_z 9 5000); (68, 1, [255])] in
  Forall raw_ok rs /\ Forall raw_nonempty rs /\ List.length (expected 0 rs) = 3%nat.
Proof.
  cbv zeta. split; [|split; [|reflexivity]].
  - repeat constructor; unfold raw_ok, tag_ok; repeat split; try lia; vm_compute; reflexivity.
  - repeat constructor; unfold raw_nonempty; vm_compute; discriminate.
Qed.

(** The written bytes are the documented ones. *)
Theorem C02_dump_is_wire_format : forall rs, Forall raw_ok rs ->
  dump_records (map to_record rs) = Ok (wire_all rs).
Proof. exact dump_records_wire. Qed.
Print Assumptions C02_dump_is_wire_format.

(** An empty payload is written but cannot be read back: reading fails at it. *)
Theorem C02_empty_payload_refuted : exists rs b, Forall raw_ok rs /\
  dump_records (map to_record rs) = Ok b /\
  read_records (open_bytes b) <> (expected 0 rs, Finished).
Proof.
  exists [(66, 0, [])]. eexists. split; [|split].
  - repeat constructor; vm_compute; congruence.
  - vm_compute. reflexivity.
  - vm_compute. discriminate.
Qed.
Print Assumptions C02_empty_payload_refuted.

Theorem C02_empty_payload_stops : forall rs t l rest, Forall raw_ok rs -> Forall raw_nonempty rs ->
  tag_ok t -> tag_ok l ->
  record_stream 0 0 (wire_all rs ++ wire t l [] ++ rest) (expected 0 rs)
                (Failed (Eof (0 + zlen (wire_all rs) + 4))).
Proof. intros. now apply wire_grammar_empty. Qed.
Print Assumptions C02_empty_payload_stops.

(** C03. *)
Theorem C03_reading_accounts_for_every_byte : forall b rs, all_bytes b ->
  read_records (open_bytes b) = (rs, Finished) ->
  exists parts tail, b = concat parts ++ tail /\ Forall2 accounts rs parts /\
    (tail = [] \/ header_word_ext tail) /\
    map r_seqno rs = map (fun i => Some (Z.of_nat i)) (seq 0 (List.length rs)) /\
    (forall i r, nth_error rs i = Some r -> 0 < zlen (r_payload r) <= r_size r /\
       (zlen (r_payload r) = r_size r \/ S i = List.length rs /\ tail = [])).
Proof. exact reading_accounts. Qed.
Print Assumptions C03_reading_accounts_for_every_byte.

Theorem C03_redump_canonical : forall rs, Forall raw_ok rs -> Forall raw_nonempty rs ->
  forall got, read_records (open_bytes (wire_all rs)) = (got, Finished) ->
  dump_records got = Ok (wire_all rs).
Proof. exact redump_canonical. Qed.
Print Assumptions C03_redump_canonical.

Example C03_case : all_bytes [66; 0; 0x30; 0; 1; 2; 3; 67; 4; 0x50; 0; 7] /\
  read_records (open_bytes [66; 0; 0x30; 0; 1; 2; 3; 67; 4; 0x50; 0; 7]) =
    ([record_of 0 66 0 3 [1; 2; 3]; record_of 1 67 1 5 [7]], Finished).
Proof. split; [repeat constructor; lia|vm_compute; reflexivity]. Qed.

(** C04.  The reader follows the grammar of Spec_Record exactly, on every byte
    string; the only failures are struct.error and Eof. *)
Theorem C04_reader_follows_grammar : forall b rs o, all_bytes b ->
  read_records (open_bytes b) = (rs, o) <-> record_stream 0 0 b rs o.
Proof. exact read_records_grammar. Qed.
Print Assumptions C04_reader_follows_grammar.

Theorem C04_only_failures : forall b, all_bytes b ->
  snd (read_records (open_bytes b)) = Finished \/
  snd (read_records (open_bytes b)) = Failed StructError \/
  exists pos, snd (read_records (open_bytes b)) = Failed (Eof pos) /\ 0 < pos <= zlen b.
Proof. exact only_failures. Qed.
Print Assumptions C04_only_failures.

Example C04_case :
  read_records (open_bytes [66; 0; 0x10; 0; 9; 66; 0]) = ([record_of 0 66 0 1 [9]], Failed StructError) /\
  read_records (open_bytes [66; 0; 0x10; 0; 9; 66; 0; 0; 0; 5]) = ([record_of 0 66 0 1 [9]], Failed (Eof 9)) /\
  read_records (open_bytes [66; 0; 0x10; 0; 9; 66; 0; 0xf0; 0xff]) = ([record_of 0 66 0 1 [9]], Finished) /\
  read_records (open_bytes [66; 0; 0xf0; 0xff; 3]) = ([], Failed StructError).
Proof. repeat split; vm_compute; reflexivity. Qed.

(** C05.  The groups are the unique partition described by [is_grouping]; when
    the record source fails, all groups before the one being read are given. *)
Theorem C05_grouping : forall A (level : A -> Z) rs gs,
  group_by_toplevel level (rs, Finished) = (gs, Finished) <-> is_grouping level rs gs.
Proof. exact grouping_correct. Qed.
Print Assumptions C05_grouping.

Theorem C05_grouping_of_failing_source : forall A (level : A -> Z) rs e gs, is_grouping level rs gs ->
  group_by_toplevel level (rs, Failed e) = (removelast gs, Failed e).
Proof. exact grouping_failed. Qed.
Print Assumptions C05_grouping_of_failing_source.

Example C05_case : is_grouping (fun x => x) [1; 2; 0; 1; 0; 0; 3] [[1; 2]; [0; 1]; [0]; [0; 3]].
Proof. apply C05_grouping. vm_compute. reflexivity. Qed.

(** C06. *)
Theorem C06_range : forall a b rs o i,
  nth_error (fst (select_records (SelRange a b) (rs, o))) i =
    if Nat.ltb (a + i) b then nth_error rs (a + i) else None.
Proof. exact range_selection. Qed.
Print Assumptions C06_range.

Theorem C06_range_outcome : forall a b rs o,
  snd (select_records (SelRange a b) (rs, o)) = Finished <->
  (o = Finished \/ (a <= List.length rs /\ b <= List.length rs)%nat).
Proof. exact range_outcome. Qed.
Print Assumptions C06_range_outcome.

Theorem C06_index : forall i rs o,
  select_record i (rs, o) =
    match nth_error rs i, o with
    | Some r, _ => Ok (Some r)
    | None, Finished => Ok None
    | None, Failed e => Raise e
    | None, OutOfFuel => Raise AssertionError
    end.
Proof. exact index_selection. Qed.
Print Assumptions C06_index.

Theorem C06_tree_group : forall n rs gs, is_grouping r_level rs gs ->
  select_records (SelTree n) (rs, Finished) =
    (match nth_error gs n with Some g => (g, Finished) | None => ([], Failed TypeError) end) /\
  records_treegroup n (rs, Finished) = Ok (nth_error gs n).
Proof. exact tree_selection. Qed.
Print Assumptions C06_tree_group.

Example C06_case :
  let rs := expected 0 [(66, 0, [1]); (67, 1, [2]); (66, 0, [3]); (67, 1, [4])] in
  select_records (SelTree 1) (rs, Finished) = (expected 2 [(66, 0, [3]); (67, 1, [4])], Finished) /\
  select_records (SelRange 1 3) (rs, Finished) = (expected 1 [(67, 1, [2]); (66, 0, [3])], Finished).
Proof. split; vm_compute; reflexivity. Qed.

(** C55. *)
Theorem C55_links : forall levels,
  List.length (link_records levels) = List.length levels /\
  forall i lk, nth_error (link_records levels) i = Some lk ->
    (forall j, l_sister lk = Some j <-> is_sister levels i j) /\
    (forall p, l_parent lk = Some p <-> is_parent levels i p).
Proof. exact links_correct. Qed.
Print Assumptions C55_links.

Example C55_case : nth_error (link_records [0; 1; 1; 2; 0]) 2 = Some (mkLinks (Some 1%nat) (Some 0%nat)).
Proof. reflexivity. Qed.

(** C59.  The name shown for a tag id identifies it. *)
Theorem C59_tagname_injective : forall a b, tagname a = tagname b -> a = b.
Proof. exact tagname_injective. Qed.
Print Assumptions C59_tagname_injective.

Theorem C59_documented_names : forall id name, In (id, name) documented_tags -> tagname id = zs name.
Proof. exact tagname_documented. Qed.
Print Assumptions C59_documented_names.

Theorem C59_other_names : forall id, ~ In id (map fst documented_tags) ->
  tagname id = zs "HWPTAG" ++ fmt_d (id - 16).
Proof. exact tagname_undocumented. Qed.
Print Assumptions C59_other_names.

Example C59_case : tagname 66 = zs "HWPTAG_PARA_HEADER" /\ tagname 29 = zs "HWPTAG13" /\ tagname 3 = zs "HWPTAG-13".
Proof. repeat split; vm_compute; reflexivity. Qed.
