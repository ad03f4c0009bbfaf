(** C72: the XML of a whole file. *)
From Coq Require Import ZArith String List Bool.
From Verif Require Import Base BaseFacts Model_Tree Model_ParaText Model_XmlModel Model_Text Model_Record Model_Models Model_Oleprops Model_Embed
  Model_XmlText Model_XmlElement Model_XmlFile Spec_Tree Spec_XmlText Spec_Bintype Spec_Models Spec_Oleprops Spec_Layouts Spec_XmlElement Spec_XmlModel Spec_XmlFile Spec_XmlSummary Spec_XmlHwp
  Proof_XmlText Proof_XmlHwp.
From Verif Require Props_Oleprops Props_XmlElement Props_XmlFile Props_XmlSummary.
Import ListNotations.
Open Scope string_scope.
Open Scope list_scope.
Open Scope Z_scope.

(** ** C72 *)

(** The file becomes one element HwpDoc with the version, in which are the elements
    of the summary information (C71), the document information (C69) and the
    sections (C70), with numbers at some elements; its bytes can be read back if
    all texts can be written. *)
Theorem C72_document : forall time_text repr object version embedbin formats summary_bytes summary docinfo sections,
  version_ok version -> (forall read n d, embedbin = Some read -> read n = Ok d -> all_bytes d) ->
  stream_reads_as formats summary_bytes summary -> (forall set, In set (pss_sets summary) -> times_ok time_text (ps_properties set)) ->
  docinfo_fits version embedbin docinfo -> Forall (fun s => section_fits version (snd s)) sections ->
  exists n s ds ss v t after,
    summary_element time_text summary s /\ docinfo_shown repr object version embedbin docinfo ds /\
    Forall2 (section_shown repr object version) sections ss /\ version_text version v /\
    numbered [] (Elem (zs "HwpDoc") [(zs "version", v)] [] [s; Elem (zs "DocInfo") [] [] ds; Elem (zs "BodyText") [] [] ss]) t after /\
    well_named t /\
    (forall k fuel, xmlevents (fun v => repr (view_of v)) object (4 + fuel)
       (hwp5file_events time_text embedbin version summary (stream_models (n + k) version (docinfo, Finished))
          (map (fun s => (fst s, stream_models (n + k) version (snd s, Finished))) sections)) = (events_of t, Finished)) /\
    (writable_text t -> forall decl, exists chunks text body,
       xml_bytechunks decl (events_of t) = (chunks, Finished) /\ concat chunks = (if decl then xml_declaration else []) ++ body /\
       utf8_decode body = Some text /\ xml_read text = Some (read_back [] (events_of t))).
Proof. exact whole_document. Qed.
Print Assumptions C72_document.

(** The elements of one of these names have the numbers 0, 1, 2, ... in the order
    in which they are in the document, so that every number is given once. *)
Theorem C72_numbers : forall name key t t' after i attrs, In (name, key) numbered_names -> numbered [] t t' after ->
  nth_error (named name t') i = Some attrs -> exists text, decimal text (Z.of_nat i) /\ In (key, text) attrs.
Proof. exact numbers_from_zero. Qed.
Print Assumptions C72_numbers.

(** The stream of C51_case, the document information of C69_case, and two sections
    like that of C70_case. *)
Definition the_ids (evs : list xevent) : list (list Z * list (list Z * list Z)) :=
  flat_map (fun e => match e with
                     | XStart n attrs => match id_attribute n with Some key => [(n, filter (fun a => same (fst a) key) attrs)] | None => [] end
                     | _ => []
                     end) evs.
Definition starts (evs : list xevent) : list (list Z) := flat_map (fun e => match e with XStart n _ => [n] | _ => [] end) evs.
Example C72_case : forall repr object,
  let models := fun records => stream_models 100 [5; 0; 2; 4] (records, Finished) in
  let '(evs, o) := xmlevents repr object 4 (hwp5file_events (fun n => Ok (zs "2016-02-15 10:40:00")) (Some Props_XmlElement.demo_read) [5; 0; 2; 4]
    Props_Oleprops.demo_stream (models Props_XmlElement.demo_records) [(0, models Props_XmlFile.one_section); (1, models Props_XmlFile.one_section)]) in
  o = Finished /\
  starts evs = map zs
    ["HwpDoc"; "HwpSummaryInfo"; "PropertySetStream"; "PropertySet"; "Property"; "Property"; "DictionaryEntry"; "Property"; "Property"; "Property"; "Property";
     "DocInfo"; "BinData"; "BinDataEmbedding"; "TabDef"; "Array"; "Tab";
     "BodyText"; "SectionDef"; "ColumnSet"; "Paragraph"; "LineSeg"; "Text"; "SectionDef"; "ColumnSet"; "Paragraph"; "LineSeg"; "Text"] /\
  firstn 1 evs = [XStart (zs "HwpDoc") [(zs "version", zs "5.0.2.4")]] /\
  the_ids evs = [(zs "Paragraph", [(zs "paragraph-id", zs "0")]); (zs "Paragraph", [(zs "paragraph-id", zs "1")])].
Proof. intros repr object. vm_compute. repeat split. Qed.
