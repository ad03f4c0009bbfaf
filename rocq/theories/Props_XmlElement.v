(** C68: the element of a record.  C69: documents as elements; the document
    information. *)
From Coq Require Import ZArith String List Bool Lia Permutation.
From Verif Require Import Base BaseFacts Model_Text Model_Dataio Model_Record Model_Tree Model_Bintype Model_Layouts Model_Models
  Model_Embed Model_XmlText Model_XmlElement Spec_Tree Spec_XmlText Spec_Bintype Spec_Models Spec_Layouts Spec_Embed Spec_XmlElement
  Proof_XmlText Proof_Models Proof_Layouts Proof_XmlRecord Proof_XmlNames Proof_XmlDocument Proof_XmlDocinfo.
From Verif Require Props_Models.
Import ListNotations.
Open Scope string_scope.
Open Scope list_scope.
Open Scope Z_scope.

(** ** C68 *)

(** Every record that can be read becomes an element as described by [element]:
    whatever its payload, also after its rows were made, data was embedded, or ids
    were added.  [repr] is Python's text of a float or a list of texts, [object]
    that of an object. *)
Theorem C68_element : forall repr object version parent tagid payload m A X fuel, all_bytes payload ->
  reads version parent tagid payload (Ok m) -> ~ In (m_type m) unwritten -> kept (m_type m) (m_content m) A ->
  addable (m_type m) (record_parts tagid (m_type m)) (views X) ->
  exists t, startelement (fun v => repr (view_of v)) object (4 + fuel) version (record_model (m_type m)) (A ++ X) = (opening t, Finished) /\
            Spec_XmlElement.element repr object (m_type m) (views (A ++ X)) t.
Proof. exact record_element. Qed.
Print Assumptions C68_element.

(** The names of the element, its attributes and its children are XML names. *)
Theorem C68_names : forall repr object version parent tagid payload m A t, all_bytes payload ->
  reads version parent tagid payload (Ok m) -> kept (m_type m) (m_content m) A ->
  Spec_XmlElement.element repr object (m_type m) (views A) t -> well_named t.
Proof.
  intros repr object version parent tagid payload m A t HB HR HK HE. apply (record_named repr object version parent tagid payload m A [] t HB HR HK eq_refl).
  rewrite app_nil_r. exact HE.
Qed.
Print Assumptions C68_names.

(** The ids that are added to records (C24, C62) can be added. *)
Theorem C68_ids : forall version parent tagid payload m key n, reads version parent tagid payload (Ok m) ->
  In (m_type m, key) [("Paragraph", "paragraph_id"); ("TableControl", "table_id"); ("GShapeObjectControl", "gshape_id");
                      ("ShapeComponent", "shape_id"); ("SectionDef", "section_id")] ->
  addable (m_type m) (record_parts tagid (m_type m)) (views [(key, VInt n)]).
Proof. exact ids_addable. Qed.
Print Assumptions C68_ids.

(** ** C69 *)

(** Any tree of models whose conversion ends without an exception is written as
    elements: one for each model, the children of a model within its element after
    the members that are elements themselves; no two attributes of an element have
    the same name; start and end tags match. *)
Theorem C69_elements : forall py_repr object fuel f rest o out,
  modelevents_to_xmlevents py_repr object fuel (walk f ++ rest) o = (out, Finished) ->
  exists ts, written (fun it t => startelement py_repr object fuel (mi_version it) (mi_model it) (mi_attributes it) = (opening t, Finished) /\
                                  root_name t = zs (model_name (mi_model it))) f ts /\
    Forall distinct_attributes ts /\
    modelevents_to_xmlevents py_repr object fuel (walk f ++ rest) o =
      gapp (flat_map events_of ts) (modelevents_to_xmlevents py_repr object fuel rest o) /\
    nested [] (flat_map events_of ts).
Proof.
  intros py_repr object fuel f rest o out H. destruct (document_elements py_repr object fuel f rest o out H) as (ts & W & D).
  exists ts. split; [exact W|]. split; [exact D|]. split; [exact (document_written py_repr object fuel f ts W rest o)|].
  pose proof (nested_elements ts [] [] nested_nil) as N. rewrite app_nil_r in N. exact N.
Qed.
Print Assumptions C69_elements.

(** The document information: a DocInfo element with an element for each record,
    nested as the levels of the records say, with the embedded data if it is asked
    for and can be read.  Its names are XML names; if all texts can be written, its
    bytes can be read back. *)
Theorem C69_docinfo : forall repr object version embedbin records out, version_ok version ->
  Forall (fun r => all_bytes (r_payload r) /\ 0 <= r_level r) records -> (forall r rest, records = r :: rest -> r_level r = 0) ->
  (forall read n d, embedbin = Some read -> read n = Ok d -> all_bytes d) ->
  models_of version Finished [] records out Finished ->
  (forall r m, In (r, m) out -> ~ In (m_type m) unwritten) ->
  (forall r m read x, In (r, m) out -> embedbin = Some read -> ~ embedding read (mkBev true (m_type m) (m_content m)) (Raise x)) ->
  exists n f ts, preorder 0 f = map (fun rm => (r_level (fst rm), rm)) out /\ written (shown_record repr object embedbin) f ts /\
    (forall k fuel, xmlevents (fun v => repr (view_of v)) object (4 + fuel)
       (docinfo_events embedbin version (stream_models (n + k) version (records, Finished))) =
       (events_of (Elem (zs "DocInfo") [] [] ts), Finished)) /\
    Forall well_named ts /\
    (Forall writable_text ts -> forall decl, exists chunks text body,
       xml_bytechunks decl (events_of (Elem (zs "DocInfo") [] [] ts)) = (chunks, Finished) /\
       concat chunks = (if decl then xml_declaration else []) ++ body /\
       utf8_decode body = Some text /\ xml_read text = Some (read_back [] (events_of (Elem (zs "DocInfo") [] [] ts)))).
Proof. exact docinfo_document. Qed.
Print Assumptions C69_docinfo.

(** A picture of four bytes, and a definition of one tab below it. *)
Definition demo_records : list record :=
  [Props_Models.rec 18 0 ([1;0] ++ [26;0] ++ [3;0] ++ [106;0;112;0;103;0]); Props_Models.rec 22 1 ([1;0;0;0] ++ [1;0;0;0] ++ [16;39;0;0;1;2;0;0])].
Definition demo_read (n : list Z) : res (list Z) := if list_eq_dec Z.eq_dec n (zs "BIN001A.jpg") then Ok [1; 2; 3; 4] else Raise KeyError.
Example C69_case : forall repr object,
  version_ok [5; 0; 2; 4] /\ Forall (fun r => all_bytes (r_payload r) /\ 0 <= r_level r) demo_records /\
  (let g := stream_models 100 [5; 0; 2; 4] (demo_records, Finished) in
   snd g = Finished /\ map (fun rm => m_type (snd rm)) (fst g) = ["BinData"; "TabDef"] /\
   (let '(evs, o) := xmlevents repr object 4 (docinfo_events (Some demo_read) [5; 0; 2; 4] g) in
    o = Finished /\ concat (xmlevents_to_textchunks evs) = zs
"<DocInfo><BinData flags=""0001"" storage=""embedding"" compression=""storage_default"" access=""never""><BinDataEmbedding storage-id=""BIN001A"" ext=""jpg"" inline=""true"" attribute-name=""bindata"">
AQIDBA==
</BinDataEmbedding><TabDef flags=""00000001"" autotab-left=""1"" autotab-right=""0""><Array name=""tabs""><Tab pos=""10000"" flags=""00000201"" kind=""right"" fill-type=""2""></Tab></Array></TabDef></BinData></DocInfo>")).
Proof.
  intros repr object. split; [split; [reflexivity|repeat (constructor; [unfold is_byte; lia|]); constructor]|]. split.
  - repeat (constructor; [split; [apply Forall_forall; intros x Hx; cbn in Hx; unfold is_byte; repeat (destruct Hx as [<-|Hx]; [lia|]); contradiction|cbn; lia]|]). constructor.
  - vm_compute. repeat split.
Qed.

(** The element of a table body whose row sizes were taken away, and of a
    paragraph with an id. *)
Example C68_case : forall repr object,
  (let '(out, o) := parse_models 200 [5; 0; 2; 4] (Props_Models.table_records, Finished) in
   map (fun rm => let m := snd rm in
     let attrs := if String.eqb (m_type m) "Paragraph" then m_content m ++ [("paragraph_id", VInt 7)] else filter (fun kv => negb (String.eqb (fst kv) "rowcols")) (m_content m) in
     concat (xmlevents_to_textchunks (fst (Model_XmlElement.element repr object 4 [5; 0; 2; 4] (record_model (m_type m)) attrs)))) (firstn 1 (skipn 2 out) ++ firstn 1 (skipn 4 out)))
  = [zs "<TableBody flags=""00000000"" split-page=""none"" repeat-header=""0"" rows=""0"" cols=""0"" cellspacing=""0"" padding-left=""0"" padding-right=""0"" padding-top=""0"" padding-bottom=""0"" rowcols=""()"" borderfill-id=""0""><Array name=""validZones""></Array></TableBody>";
     zs "<Paragraph text=""00000000"" unknown=""0"" chars=""0"" controlmask=""00000000"" unknown1=""0"" control=""0"" new-number=""0"" parashape-id=""0"" style-id=""0"" split=""00"" new-section=""0"" new-columnsdef=""0"" new-page=""0"" new-column=""0"" charshapes=""0"" rangetags=""0"" linesegs=""0"" instance-id=""0"" paragraph-id=""7""></Paragraph>"].
Proof. intros. vm_compute. reflexivity. Qed.
