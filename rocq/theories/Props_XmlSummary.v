(** C71: the XML of the summary information. *)
From Coq Require Import ZArith String List Bool.
From Verif Require Import Base BaseFacts Model_Text Model_Bintype Model_Oleprops Model_XmlText Model_XmlElement Model_XmlFile
  Spec_XmlText Spec_Oleprops Spec_Layouts Spec_XmlElement Spec_XmlSummary Proof_XmlText Proof_XmlSummary.
From Verif Require Props_Oleprops.
Import ListNotations.
Open Scope string_scope.
Open Scope list_scope.
Open Scope Z_scope.

(** ** C71 *)

(** A property set stream that lies in the bytes of the file (C51) becomes one
    element; its bytes can be read back if all texts can be written. *)
Theorem C71_summary : forall time_text py_repr object formats b s, stream_reads_as formats b s ->
  (forall set, In set (pss_sets s) -> times_ok time_text (ps_properties set)) ->
  exists t, summary_element time_text s t /\ well_named t /\
    (forall fuel, xmlevents py_repr object (4 + fuel) (summary_events time_text s) = (events_of t, Finished)) /\
    (writable_text t -> forall decl, exists chunks text body,
       xml_bytechunks decl (events_of t) = (chunks, Finished) /\ concat chunks = (if decl then xml_declaration else []) ++ body /\
       utf8_decode body = Some text /\ xml_read text = Some (read_back [] (events_of t))).
Proof. exact summary_document. Qed.
Print Assumptions C71_summary.

(** It fails just if there is a time that has no text, and then with the exception
    of such a time. *)
Theorem C71_times : forall time_text py_repr object formats b s fuel, stream_reads_as formats b s ->
  (snd (xmlevents py_repr object (4 + fuel) (summary_events time_text s)) = Finished /\ forall set, In set (pss_sets s) -> times_ok time_text (ps_properties set)) \/
  (exists set e p n, In set (pss_sets s) /\ In p (ps_properties set) /\ p_value p = PVTime n /\ time_text n = Raise e /\
    snd (xmlevents py_repr object (4 + fuel) (summary_events time_text s)) = Failed e).
Proof.
  intros time_text py_repr object formats b s fuel H.
  destruct (summary_outcome time_text py_repr object formats b s fuel H) as [G|(set & e & HS & (p & n & HP & EN & ET) & E)]; [left; exact G|right].
  exists set, e, p, n. auto.
Qed.
Print Assumptions C71_times.

(** The stream of C51_case. *)
Definition demo_start : list Z := zs
"<HwpSummaryInfo><PropertySetStream byte-order=""fffe"" version=""0"" system-identifier=""00010005"" clsid=""9fa2b660-1061-11d4-b4c6-006097c09d8c""><PropertySet fmtid=""9fa2b660-1061-11d4-b4c6-006097c09d8c"" offset=""48""><Property id=""1"" offset=""64"" id-label=""PID_CODEPAGE"" type=""VT_I4"" type-code=""0x0003"" value=""949""></Property><Property id=""0"" offset=""84"" id-label=""PID_DICTIONARY""><DictionaryEntry id=""2"" name=""ti""></DictionaryEntry></Property><Property id=""2"" offset=""99"" id-label=""PIDSI_TITLE"" type=""VT_LPWSTR"" type-code=""0x001f"" value=""A" ++ [0x1F600] ++ zs
"""></Property><Property id=""20"" offset=""115"" id-label=""HWPPIDSI_DATE_STR"" type=""VT_LPWSTR"" type-code=""0x001f"" value=""""></Property>".
Definition demo_rest : list Z := zs
"<Property id=""11"" offset=""123"" id-label=""PIDSI_LASTPRINTED"" type=""VT_FILETIME"" type-code=""0x0040"" value=""2016-02-15 10:40:00""></Property><Property id=""14"" offset=""135"" id-label=""PIDSI_PAGECOUNT"" type=""VT_I4"" type-code=""0x0003"" value=""-1""></Property></PropertySet></PropertySetStream></HwpSummaryInfo>".
Example C71_case : forall py_repr object,
  stream_reads_as [(summary_guid, identifier_names)] Props_Oleprops.demo_stream_bytes Props_Oleprops.demo_stream /\
  (let '(evs, o) := xmlevents py_repr object 4 (summary_events (fun n => Ok (zs "2016-02-15 10:40:00")) Props_Oleprops.demo_stream) in
   o = Finished /\ concat (xmlevents_to_textchunks evs) = demo_start ++ demo_rest) /\
  (let '(evs, o) := xmlevents py_repr object 4 (summary_events (fun n => Raise ValueError) Props_Oleprops.demo_stream) in
   o = Failed ValueError /\ concat (xmlevents_to_textchunks evs) = demo_start).
Proof. intros py_repr object. split; [exact Props_Oleprops.demo_reads|]. vm_compute. repeat split. Qed.
