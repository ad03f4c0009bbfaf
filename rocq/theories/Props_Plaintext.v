(** C84: the text hwp5txt writes. *)
From Coq Require Import ZArith String List Bool Lia.
From Verif Require Import Base BaseFacts Model_Tree Model_ParaText Model_XmlModel Model_Text Model_Record Model_Models Model_Oleprops Model_Embed
  Model_XmlText Model_XmlElement Model_XmlFile Spec_Tree Spec_Shape Spec_Section Spec_XmlText Spec_Bintype Spec_Models Spec_Oleprops Spec_Layouts Spec_XmlElement Spec_XmlModel Spec_XmlFile Spec_XmlSummary Spec_XmlHwp
  Model_Plaintext Spec_Plaintext Proof_Plaintext Proof_PlaintextXml.
From Verif Require Props_Section Props_Models Props_Oleprops Props_XmlElement Props_XmlFile Props_XmlSummary Props_XmlHwp.
Import ListNotations.
Open Scope string_scope.
Open Scope list_scope.
Open Scope Z_scope.

(** ** C84 *)

(** If the file is as in C72 and every section has one section definition, the
    style sheet makes of its XML the texts of the sections, one after the other. *)
Theorem C84_document : forall time_text repr object version embedbin formats summary_bytes summary docinfo sections,
  version_ok version -> (forall read n d, embedbin = Some read -> read n = Ok d -> all_bytes d) ->
  stream_reads_as formats summary_bytes summary -> (forall set, In set (pss_sets summary) -> times_ok time_text (ps_properties set)) ->
  docinfo_fits version embedbin docinfo -> Forall (fun s => section_fits version (snd s)) sections ->
  (forall s f, In s sections -> section_records version (snd s) f -> definition_records f = 1%nat) ->
  exists n t fs,
    Forall2 (fun s f => section_records version (snd s) f) sections fs /\
    (forall k fuel, xmlevents (fun v => repr (view_of v)) object (4 + fuel)
       (hwp5file_events time_text embedbin version summary (stream_models (n + k) version (docinfo, Finished))
          (map (fun s => (fst s, stream_models (n + k) version (snd s, Finished))) sections)) = (events_of t, Finished)) /\
    (writable_text t -> forall decl, exists chunks text body,
       xml_bytechunks decl (events_of t) = (chunks, Finished) /\ concat chunks = (if decl then xml_declaration else []) ++ body /\
       utf8_decode body = Some text /\ xml_read text = Some (read_back [] (events_of t))) /\
    plaintext (read_back [] (events_of t)) = Some (concat (map section_text fs)).
Proof. exact text_of_document. Qed.
Print Assumptions C84_document.

(** Character shapes, line segments, styles and all other attributes do not
    matter. *)
Theorem C84_only_text : forall f g, same_text f g -> section_text g = section_text f.
Proof. exact text_same. Qed.
Print Assumptions C84_only_text.

(** A text without controls: its characters. *)
Theorem C84_plain : forall chunks, Forall not_extended chunks -> forall ms, laid_out chunks ms = says (characters_of chunks).
Proof. exact laid_plain. Qed.
Print Assumptions C84_plain.

(** No other characters below the space than line feeds. *)
Theorem C84_printable : forall version records f, Forall (fun r => all_bytes (r_payload r)) records -> section_records version records f ->
  Forall (fun c => c = 10 \/ 0x20 <= c) (section_text f).
Proof. exact clean_section. Qed.
Print Assumptions C84_printable.

(** A section of two paragraphs: a section definition, the letter a, a tab and the
    letter b; the letter c, a non-breaking space, the letter d, a line break and
    the letter e. *)
Definition header (chars mask : Z) : list Z := [chars; 0; 0; 0] ++ [mask; 0; 0; 0] ++ [1;0] ++ [2] ++ [3] ++ [1;0] ++ [0;0] ++ [1;0] ++ [0;0;0;0].
Definition shapes : list Z := [0;0;0;0] ++ [7;0;0;0].
Definition line : list Z := [0;0;0;0] ++ [1;0;0;0] ++ [2;0;0;0] ++ [3;0;0;0] ++ [4;0;0;0] ++ [5;0;0;0] ++ [6;0;0;0] ++ [7;0;0;0] ++ [0;0;6;0].
Definition definition_control : list Z := [2;0] ++ [100;99;101;115] ++ [0;0;0;0;0;0;0;0] ++ [2;0].
Definition a_tab : list Z := [9;0] ++ [0;0;0;0;0;0;0;0;0;0;0;0] ++ [9;0].
Definition section_of (first second : list Z) : list record :=
  [Props_Models.rec 66 0 (header (8 + zlen first / 2) 4);
   Props_Models.rec 67 1 (definition_control ++ first);
   Props_Models.rec 68 1 shapes; Props_Models.rec 69 1 line;
   Props_Models.rec 71 1 ([100;99;101;115] ++ repeat 0 32);
   Props_Models.rec 66 0 (header (zlen second / 2) 0);
   Props_Models.rec 67 1 second;
   Props_Models.rec 68 1 shapes; Props_Models.rec 69 1 line].
Definition with_separators : list record := section_of ([97;0] ++ a_tab ++ [98;0]) ([99;0] ++ [30;0] ++ [100;0] ++ [10;0] ++ [101;0]).
Definition without_separators : list record := section_of [97;0; 98;0] [99;0; 100;0; 101;0].
Definition printed (repr : _) (object : list Z) (records : list record) : option (list Z) :=
  let models := fun records => stream_models 100 [5; 0; 2; 4] (records, Finished) in
  let '(evs, o) := xmlevents repr object 4 (hwp5file_events (fun n => Ok (zs "2016-02-15 10:40:00")) None [5; 0; 2; 4]
    Props_Oleprops.demo_stream (models Props_XmlElement.demo_records) [(0, models records); (1, models Props_XmlFile.one_section)]) in
  match o with Finished => plaintext (read_back [] evs) | _ => None end.
Example C84_case : forall repr object,
  printed repr object without_separators = Some (zs "ab" ++ [10] ++ zs "cde" ++ [10] ++ zs "a" ++ [10]) /\
  snd (stream_models 100 [5; 0; 2; 4] (with_separators, Finished)) = Finished.
Proof. intros repr object. split; vm_compute; reflexivity. Qed.

(** The sections of C70_case and of C34_case: of the table only the sign is left. *)
Example C84_sections :
  section_ok Props_Section.c34_case /\ definition_records Props_Section.c34_case = 1%nat /\
  section_text Props_Section.c34_case = [10] ++ zs "<" ++ [0xD45C] ++ zs ">" ++ [10] ++ zs "a" ++ [10] ++ zs "bc" ++ [10] /\
  definition_records Props_XmlFile.the_tree = 1%nat /\ section_text Props_XmlFile.the_tree = zs "a" ++ [10].
Proof. split; [exact (proj1 Props_Section.C34_case)|]. repeat split; vm_compute; reflexivity. Qed.

(** What one would expect, that words with a tab, a space or a line break between
    them are apart in the output, is wrong: only controls with a record are
    replaced by something, all other control characters are dropped. *)
Theorem C84_separators_dropped : forall a ct b ms, extended_code (chunk_control_code ct) = false ->
  laid_out (a ++ ChCtl ct :: b) ms = laid_out (a ++ b) ms.
Proof. exact laid_without. Qed.
Print Assumptions C84_separators_dropped.
Theorem C84_words_apart_refuted : forall repr object,
  printed repr object with_separators = printed repr object without_separators /\ printed repr object with_separators <> None /\
  Forall (fun c => extended_code c = false) [0x09; 0x0a; 0x18; 0x1e; 0x1f].
Proof. intros repr object. split; [vm_compute; reflexivity|]. split; [vm_compute; discriminate|]. repeat constructor. Qed.
Print Assumptions C84_words_apart_refuted.
