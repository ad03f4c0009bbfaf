(** Property theorems about OLE property sets and the summary information:
    C51, C65, C66. *)
From Coq Require Import ZArith String List Bool Lia Permutation Sorted.
From Verif Require Import Base BaseFacts Model_Text Model_Dataio Model_Bintype Model_XmlText Model_Oleprops
  Spec_Text Spec_Dataio Spec_Filestructure Spec_Oleprops Proof_Oleprops Proof_OleText.
Import ListNotations.
Open Scope string_scope.
Open Scope list_scope.
Open Scope Z_scope.

(** C51.  A stream whose bytes lay out the header, the sets and their properties
    ([stream_reads_as]) is read as just that: each set lists, code page first,
    dictionary second, the others as first listed, the value stored at the last
    offset given for its id. *)
Theorem C51_stream_read : forall formats b s, stream_reads_as formats b s ->
  eventually (fun fuel => read_property_set_stream fuel formats b) (Some (Ok s)).
Proof. exact read_stream. Qed.
Print Assumptions C51_stream_read.

Theorem C51_set_read : forall formats b s, set_reads_as formats b s ->
  eventually (fun fuel => read_property_set fuel formats b (ps_fmtid s, ps_offset s)) (Some (Ok s)).
Proof. exact read_set. Qed.
Print Assumptions C51_set_read.

(** Looking up: every listed id gives its value, any other a KeyError. *)
Theorem C51_lookup : forall formats b s, set_reads_as formats b s ->
  (forall i, In i (map fst (ps_descs s)) -> exists p, In p (ps_properties s) /\ p_id p = i /\ getitem (ps_properties s) i = Ok (p_value p)) /\
  (forall i, ~ In i (map fst (ps_descs s)) -> getitem (ps_properties s) i = Raise KeyError).
Proof.
  intros formats b s H. split; [|intros i; exact (lookup_missing formats b s i H)].
  intros i I. destruct (every_id_read formats b s i H I) as (p & P & E). exists p. rewrite <- E.
  split; [exact P|]. split; [reflexivity|]. exact (lookup_listed formats b s p H P).
Qed.
Print Assumptions C51_lookup.

(** A set with properties other than the code page but without a dictionary
    cannot be read. *)
Theorem C51_no_dictionary : forall formats b fmtid off size descs i,
  set_at b off size descs -> ~ has_dictionary descs -> In i (map fst descs) -> i <> 1 ->
  (In 1 (map fst descs) -> exists p, p_id p = 1 /\ listed_property formats b fmtid off descs p) ->
  eventually (fun fuel => read_property_set fuel formats b (fmtid, off)) (Some (Raise AttributeError)).
Proof. exact no_dictionary. Qed.
Print Assumptions C51_no_dictionary.

(** The first property of an unsupported type fails the whole set. *)
Theorem C51_unknown_type : forall formats b fmtid off size descs before i later o w,
  set_at b off size descs -> reading_order descs = map p_id before ++ i :: later ->
  Forall (listed_property formats b fmtid off descs) before -> (has_dictionary descs \/ i = 1) ->
  i <> 0 -> last_with i o descs -> is_u32 w -> at_offset b (off + o) (u32 w) -> ~ In (w mod 2 ^ 17) [3; 31; 64] ->
  eventually (fun fuel => read_property_set fuel formats b (fmtid, off)) (Some (Raise KeyError)).
Proof. exact unknown_type. Qed.
Print Assumptions C51_unknown_type.

(** A text cut by the end of the stream is accepted without its last
    character. *)
Theorem C51_cut_text : forall b off i o label w len before cs last, is_u32 w -> w mod 2 ^ 17 = 31 -> is_u32 len ->
  b = before ++ u32 w ++ u32 len ++ utf16le_bytes (cs ++ [last]) -> zlen before = off + o ->
  Forall scalar (cs ++ [last]) -> zlen (utf16_units (cs ++ [last])) <= len ->
  eventually (fun fuel => read_property fuel b off (i, o) label) (Some (Ok (mkProperty i o label (Some 31) (PVText cs)))).
Proof. exact ev_cut_text. Qed.
Print Assumptions C51_cut_text.

(** Every byte string is read to a result or an exception. *)
Theorem C51_always_answers : forall formats b, all_bytes b ->
  exists r, eventually (fun fuel => read_property_set_stream fuel formats b) (Some r).
Proof. exact read_stream_answers. Qed.
Print Assumptions C51_always_answers.

(** Ids 1 (949), 2 (twice), 0 (a dictionary), 20, 11 (a time), 14 (-1). *)
Definition demo_stream_bytes : list Z :=
  [254; 255; 0; 0; 5; 0; 1; 0; 96; 182; 162; 159; 97; 16; 212; 17; 180; 198; 0; 96; 151; 192; 157; 140; 1; 0; 0; 0;
   96; 182; 162; 159; 97; 16; 212; 17; 180; 198; 0; 96; 151; 192; 157; 140; 48; 0; 0; 0;
   143; 0; 0; 0; 7; 0; 0; 0; 1; 0; 0; 0; 64; 0; 0; 0; 2; 0; 0; 0; 72; 0; 0; 0; 0; 0; 0; 0; 84; 0; 0; 0;
   2; 0; 0; 0; 99; 0; 0; 0; 20; 0; 0; 0; 115; 0; 0; 0; 11; 0; 0; 0; 123; 0; 0; 0; 14; 0; 0; 0; 135; 0; 0; 0;
   3; 0; 0; 0; 181; 3; 0; 0; 31; 0; 0; 0; 2; 0; 0; 0; 120; 0; 0; 0; 1; 0; 0; 0; 2; 0; 0; 0; 3; 0; 0; 0; 116; 105; 0;
   31; 0; 0; 0; 4; 0; 0; 0; 65; 0; 61; 216; 0; 222; 0; 0; 31; 0; 0; 0; 0; 0; 0; 0;
   64; 0; 0; 0; 0; 128; 147; 81; 206; 103; 209; 1; 3; 0; 0; 0; 255; 255; 255; 255].
Definition demo_descs : list (Z * Z) := [(1, 64); (2, 72); (0, 84); (2, 99); (20, 115); (11, 123); (14, 135)].
Definition demo_set : property_set :=
  mkPropertySet summary_guid 48 143 demo_descs
    [mkProperty 1 64 (Some (zs "PID_CODEPAGE")) (Some 3) (PVInt 949);
     mkProperty 0 84 (Some (zs "PID_DICTIONARY")) None (PVDict [(2, zs "ti")]);
     mkProperty 2 99 (Some (zs "PIDSI_TITLE")) (Some 31) (PVText [65; 0x1F600]);
     mkProperty 20 115 (Some (zs "HWPPIDSI_DATE_STR")) (Some 31) (PVText []);
     mkProperty 11 123 (Some (zs "PIDSI_LASTPRINTED")) (Some 64) (PVTime 131000000000000000);
     mkProperty 14 135 (Some (zs "PIDSI_PAGECOUNT")) (Some 3) (PVInt (-1))].
Definition demo_stream : property_set_stream :=
  mkPropertySetStream (mkStreamHeader 0xfffe 0 0x10005 summary_guid [(summary_guid, 48)]) [demo_set].

Ltac found := match goal with |- at_offset ?b ?off ?x =>
  exists (ztake off b), (zdrop (off + zlen x) b); split; vm_compute; reflexivity end.
Ltac not_in := let H := fresh in intros H; cbn in H; intuition discriminate.
Ltac last_at n := exists (firstn n demo_descs), (skipn (S n) demo_descs); split; [reflexivity|not_in].
Ltac named n := eexists; split;
  [exists [], []; split; [reflexivity|not_in]|exists (firstn n identifier_names), (skipn (S n) identifier_names); split; [reflexivity|not_in]].

Lemma demo_reads : stream_reads_as [(summary_guid, identifier_names)] demo_stream_bytes demo_stream.
Proof.
  assert (G : is_guid summary_guid) by (split; [reflexivity|repeat constructor; discriminate]).
  split; [|split; [|split]].
  - unfold stream_header_ok, is_u32. cbn -[Z.pow is_guid summary_guid]. repeat split; try lia; try apply G. repeat constructor; try apply G; cbn; lia.
  - found.
  - reflexivity.
  - constructor; [|constructor]. split; [|split; [|split]].
    + split; [|found]. unfold set_header_ok, is_u32. cbn -[Z.pow]. repeat split; try lia. repeat constructor; cbn; lia.
    + left. cbn. tauto.
    + reflexivity.
    + cbv [ps_properties ps_fmtid ps_offset ps_descs demo_set].
      repeat match goal with |- Forall _ (_ :: _) => constructor | |- Forall _ [] => constructor end;
        (split; [|split]); cbn [p_id p_offset p_code p_value p_label].
      * last_at 0%nat.
      * eapply stored_value; [discriminate|apply (tv_int 3 949); [unfold is_u32| |]; cbn; lia|found].
      * named 1%nat.
      * last_at 2%nat.
      * apply (stored_dictionary _ _ [(2, zs "ti" ++ [0])]); [reflexivity| |found].
        constructor; [|constructor]. unfold entry_ok, is_u32. cbn. repeat split; try lia; try discriminate. repeat constructor; discriminate.
      * named 0%nat.
      * last_at 3%nat.
      * eapply stored_value; [discriminate|apply (tv_text 31 [65; 0x1F600] 0); [unfold is_u32; lia|reflexivity| |reflexivity]|found].
        repeat constructor; unfold scalar; lia.
      * named 4%nat.
      * last_at 4%nat.
      * eapply stored_value; [discriminate|apply (tv_no_text 31); [unfold is_u32; lia|reflexivity]|found].
      * named 22%nat.
      * last_at 5%nat.
      * eapply stored_value; [discriminate|apply (tv_time 64); [unfold is_u32; lia|reflexivity|lia]|found].
      * named 13%nat.
      * last_at 6%nat.
      * eapply stored_value; [discriminate|apply (tv_int 3 (-1)); [unfold is_u32| |]; cbn; lia|found].
      * named 16%nat.
Qed.

Example C51_case :
  stream_reads_as [(summary_guid, identifier_names)] demo_stream_bytes demo_stream /\
  read_property_set_stream 200 [(summary_guid, identifier_names)] demo_stream_bytes = Some (Ok demo_stream) /\
  getitem (ps_properties demo_set) 2 = Ok (PVText [65; 0x1F600]) /\ getitem (ps_properties demo_set) 3 = Raise KeyError /\
  (* the same with the dictionary listed as 7, and with an unknown type of 949 *)
  read_property_set_stream 200 [] (ztake 72 demo_stream_bytes ++ [7] ++ zdrop 73 demo_stream_bytes) = Some (Raise AttributeError) /\
  read_property_set_stream 200 [] (ztake 112 demo_stream_bytes ++ [2] ++ zdrop 113 demo_stream_bytes) = Some (Raise KeyError).
Proof. split; [exact demo_reads|]. vm_compute. repeat split. Qed.

(** C65.  The text of a property set stream. *)
Theorem C65_stream_text : forall time_text formats b s, stream_reads_as formats b s ->
  (forall set, In set (pss_sets s) -> times_ok time_text (ps_properties set)) ->
  exists lines, stream_lines time_text s = (lines, Finished) /\ stream_text time_text s lines.
Proof. exact stream_text_ok. Qed.
Print Assumptions C65_stream_text.

(** The file written is the UTF-8 of the lines, each with a line feed. *)
Theorem C65_text_bytes : forall lines,
  lines_text (lines, Finished) = utf8_encode (flat_map (fun l => l ++ [10]) lines).
Proof. exact lines_text_is. Qed.
Print Assumptions C65_text_bytes.

Definition demo_time (n : Z) : res (list Z) := Ok (zs "2016-02-15 03:33:20").
Example C65_case :
  (forall set, In set (pss_sets demo_stream) -> times_ok demo_time (ps_properties set)) /\
  stream_lines demo_time demo_stream =
  ([zs "- ByteOrder: 0xfffe"; zs "- Version: 0"; zs "- SystemIdentifier: 0x00010005"; zs "- CLSID: 9fa2b660-1061-11d4-b4c6-006097c09d8c"; [];
    zs "- 00000030: Property Set 9fa2b660-1061-11d4-b4c6-006097c09d8c"; zs "            -------------------------------------------------";
    zs "- 00000070: PID_CODEPAGE(=0x00000001): 949"; zs "- 00000084: PID_DICTIONARY(=0x00000000):"; zs "            - 2: ti";
    zs "- 00000093: PIDSI_TITLE(=0x00000002): A" ++ [0x1F600]; zs "- 000000a3: HWPPIDSI_DATE_STR(=0x00000014): ";
    zs "- 000000ab: PIDSI_LASTPRINTED(=0x0000000b): 2016-02-15 03:33:20"; zs "- 000000b7: PIDSI_PAGECOUNT(=0x0000000e): -1"], Finished).
Proof. split; [|vm_compute; reflexivity]. intros set _ p n _ _. eexists. reflexivity. Qed.

(** C66.  The summary information: reading it, and the thirteen printed fields,
    up to the first one missing. *)
Theorem C66_summary_read : forall b s, stream_reads_as [(summary_guid, identifier_names)] b s ->
  eventually (fun fuel => summary_stream fuel b) (Some (Ok s)).
Proof. exact summary_reads. Qed.
Print Assumptions C66_summary_read.

Theorem C66_summary_text : forall time_text formats b s set, is_summary formats b s set -> times_ok time_text (ps_properties set) ->
  (forall f, In f printed_fields -> In (snd f) (map fst (ps_descs set))) ->
  exists lines, summary_lines time_text s = (lines, Finished) /\
    Forall2 (field_line time_text (ps_properties set)) printed_fields lines.
Proof. exact summary_text. Qed.
Print Assumptions C66_summary_text.

Theorem C66_missing_field : forall time_text formats b s set before f after, is_summary formats b s set ->
  times_ok time_text (ps_properties set) -> printed_fields = before ++ f :: after ->
  (forall g, In g before -> In (snd g) (map fst (ps_descs set))) -> ~ In (snd f) (map fst (ps_descs set)) ->
  exists lines, summary_lines time_text s = (lines, Failed KeyError) /\ Forall2 (field_line time_text (ps_properties set)) before lines.
Proof. exact summary_stops. Qed.
Print Assumptions C66_missing_field.

Theorem C66_other_class : forall time_text s, psh_clsid (pss_header s) <> summary_guid ->
  summary_lines time_text s = ([], Failed TypeError).
Proof. exact summary_other_class. Qed.
Print Assumptions C66_other_class.

(** All thirteen fields. *)
Definition full_bytes : list Z :=
  [254; 255; 0; 0; 5; 0; 1; 0; 96; 182; 162; 159; 97; 16; 212; 17; 180; 198; 0; 96; 151; 192; 157; 140; 1; 0; 0; 0; 96; 182; 162; 159; 97; 16; 212; 17;
  180; 198; 0; 96; 151; 192; 157; 140; 48; 0; 0; 0; 240; 0; 0; 0; 14; 0; 0; 0; 0; 0; 0; 0; 120; 0; 0; 0; 2; 0; 0; 0; 124; 0; 0; 0; 3; 0; 0; 0; 138; 0;
  0; 0; 4; 0; 0; 0; 152; 0; 0; 0; 5; 0; 0; 0; 160; 0; 0; 0; 6; 0; 0; 0; 168; 0; 0; 0; 8; 0; 0; 0; 176; 0; 0; 0; 9; 0; 0; 0; 184; 0; 0; 0; 11; 0; 0; 0;
  192; 0; 0; 0; 12; 0; 0; 0; 200; 0; 0; 0; 13; 0; 0; 0; 208; 0; 0; 0; 14; 0; 0; 0; 216; 0; 0; 0; 20; 0; 0; 0; 224; 0; 0; 0; 21; 0; 0; 0; 232; 0; 0; 0;
  0; 0; 0; 0; 31; 0; 0; 0; 3; 0; 0; 0; 97; 0; 98; 0; 0; 0; 31; 0; 0; 0; 3; 0; 0; 0; 97; 0; 98; 0; 0; 0; 3; 0; 0; 0; 4; 0; 0; 0; 3; 0; 0; 0; 5; 0; 0; 0;
  3; 0; 0; 0; 6; 0; 0; 0; 3; 0; 0; 0; 8; 0; 0; 0; 3; 0; 0; 0; 9; 0; 0; 0; 3; 0; 0; 0; 11; 0; 0; 0; 3; 0; 0; 0; 12; 0; 0; 0; 3; 0; 0; 0; 13; 0; 0; 0; 3;
  0; 0; 0; 14; 0; 0; 0; 3; 0; 0; 0; 20; 0; 0; 0; 3; 0; 0; 0; 21; 0; 0; 0].
Definition full_descs : list (Z * Z) := [(0, 120); (2, 124); (3, 138); (4, 152); (5, 160); (6, 168); (8, 176); (9, 184); (11, 192); (12, 200); (13, 208); (14, 216); (20, 224); (21, 232)].
Definition full_set : property_set :=
  mkPropertySet summary_guid 48 240 full_descs
    [mkProperty 0 120 (Some (zs "PID_DICTIONARY")) (None) (PVDict []);
     mkProperty 2 124 (Some (zs "PIDSI_TITLE")) (Some 31) (PVText (zs "ab"));
     mkProperty 3 138 (Some (zs "PIDSI_SUBJECT")) (Some 31) (PVText (zs "ab"));
     mkProperty 4 152 (Some (zs "PIDSI_AUTHOR")) (Some 3) (PVInt 4);
     mkProperty 5 160 (Some (zs "PIDSI_KEYWORDS")) (Some 3) (PVInt 5);
     mkProperty 6 168 (Some (zs "PIDSI_COMMENTS")) (Some 3) (PVInt 6);
     mkProperty 8 176 (Some (zs "PIDSI_LASTAUTHOR")) (Some 3) (PVInt 8);
     mkProperty 9 184 (Some (zs "PIDSI_REVNUMBER")) (Some 3) (PVInt 9);
     mkProperty 11 192 (Some (zs "PIDSI_LASTPRINTED")) (Some 3) (PVInt 11);
     mkProperty 12 200 (Some (zs "PIDSI_CREATE_DTM")) (Some 3) (PVInt 12);
     mkProperty 13 208 (Some (zs "PIDSI_LASTSAVE_DTM")) (Some 3) (PVInt 13);
     mkProperty 14 216 (Some (zs "PIDSI_PAGECOUNT")) (Some 3) (PVInt 14);
     mkProperty 20 224 (Some (zs "HWPPIDSI_DATE_STR")) (Some 3) (PVInt 20);
     mkProperty 21 232 (Some (zs "HWPPIDSI_PARACOUNT")) (Some 3) (PVInt 21)].
Definition full_stream : property_set_stream :=
  mkPropertySetStream (mkStreamHeader 0xfffe 0 0x10005 summary_guid [(summary_guid, 48)]) [full_set].
Ltac last_of n := exists (firstn n full_descs), (skipn (S n) full_descs); split; [reflexivity|not_in].
Lemma full_reads : stream_reads_as [(summary_guid, identifier_names)] full_bytes full_stream.
Proof.
  assert (G : is_guid summary_guid) by (split; [reflexivity|repeat constructor; discriminate]).
  split; [|split; [|split]].
  - unfold stream_header_ok, is_u32. cbn -[Z.pow is_guid summary_guid]. repeat split; try lia; try apply G. repeat constructor; try apply G; cbn; lia.
  - found.
  - reflexivity.
  - constructor; [|constructor]. split; [|split; [|split]].
    + split; [|found]. unfold set_header_ok, is_u32. cbn -[Z.pow]. repeat split; try lia. repeat constructor; cbn; lia.
    + left. cbn. tauto.
    + reflexivity.
    + cbv [ps_properties ps_fmtid ps_offset ps_descs demo_set full_set].
      repeat match goal with |- Forall _ (_ :: _) => constructor | |- Forall _ [] => constructor end;
        (split; [|split]); cbn [p_id p_offset p_code p_value p_label].
      * last_of 0%nat.
      * apply (stored_dictionary _ _ []); [reflexivity|constructor|found].
      * named 0%nat.
      * last_of 1%nat.
      * eapply stored_value; [discriminate|apply (tv_text 31 (zs "ab") 0); [unfold is_u32; lia|reflexivity| |reflexivity]|found].
        repeat constructor; unfold scalar; cbn; lia.
      * named 4%nat.
      * last_of 2%nat.
      * eapply stored_value; [discriminate|apply (tv_text 31 (zs "ab") 0); [unfold is_u32; lia|reflexivity| |reflexivity]|found].
        repeat constructor; unfold scalar; cbn; lia.
      * named 5%nat.
      * last_of 3%nat.
      * eapply stored_value; [discriminate|apply (tv_int 3 4); [unfold is_u32| |]; cbn; lia|found].
      * named 6%nat.
      * last_of 4%nat.
      * eapply stored_value; [discriminate|apply (tv_int 3 5); [unfold is_u32| |]; cbn; lia|found].
      * named 7%nat.
      * last_of 5%nat.
      * eapply stored_value; [discriminate|apply (tv_int 3 6); [unfold is_u32| |]; cbn; lia|found].
      * named 8%nat.
      * last_of 6%nat.
      * eapply stored_value; [discriminate|apply (tv_int 3 8); [unfold is_u32| |]; cbn; lia|found].
      * named 10%nat.
      * last_of 7%nat.
      * eapply stored_value; [discriminate|apply (tv_int 3 9); [unfold is_u32| |]; cbn; lia|found].
      * named 11%nat.
      * last_of 8%nat.
      * eapply stored_value; [discriminate|apply (tv_int 3 11); [unfold is_u32| |]; cbn; lia|found].
      * named 13%nat.
      * last_of 9%nat.
      * eapply stored_value; [discriminate|apply (tv_int 3 12); [unfold is_u32| |]; cbn; lia|found].
      * named 14%nat.
      * last_of 10%nat.
      * eapply stored_value; [discriminate|apply (tv_int 3 13); [unfold is_u32| |]; cbn; lia|found].
      * named 15%nat.
      * last_of 11%nat.
      * eapply stored_value; [discriminate|apply (tv_int 3 14); [unfold is_u32| |]; cbn; lia|found].
      * named 16%nat.
      * last_of 12%nat.
      * eapply stored_value; [discriminate|apply (tv_int 3 20); [unfold is_u32| |]; cbn; lia|found].
      * named 22%nat.
      * last_of 13%nat.
      * eapply stored_value; [discriminate|apply (tv_int 3 21); [unfold is_u32| |]; cbn; lia|found].
      * named 23%nat.
Qed.

Example C66_case :
  is_summary [(summary_guid, identifier_names)] full_bytes full_stream full_set /\
  (forall f, In f printed_fields -> In (snd f) (map fst full_descs)) /\
  summary_stream 300 full_bytes = Some (Ok full_stream) /\
  summary_lines demo_time full_stream =
    ([zs "Title: ab"; zs "Subject: ab"; zs "Author: 4"; zs "Keywords: 5"; zs "Comments: 6"; zs "Last saved by: 8"; zs "Revision Number: 9";
      zs "Last Printed at: 11"; zs "Created at: 12"; zs "Last saved at: 13"; zs "Number of pages: 14"; zs "Date: 20"; zs "Number of paragraphs: 21"], Finished) /\
  is_summary [(summary_guid, identifier_names)] demo_stream_bytes demo_stream demo_set /\
  summary_lines demo_time demo_stream = ([zs "Title: A" ++ [0x1F600]], Failed KeyError).
Proof.
  split; [split; [exact full_reads|split; [reflexivity|exists []; reflexivity]]|].
  split; [intros f H; cbn in H |- *; intuition (subst; cbn; tauto)|].
  split; [vm_compute; reflexivity|]. split; [vm_compute; reflexivity|].
  split; [split; [exact demo_reads|split; [reflexivity|exists []; reflexivity]]|vm_compute; reflexivity].
Qed.
