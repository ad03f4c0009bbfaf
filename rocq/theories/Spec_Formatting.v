(** Specification of documents made from files: which node is made for which
    record. *)
From Coq Require Import ZArith String List Bool.
From Verif Require Import Base Model_Tree Model_Record Model_Bintype Model_Models Model_Plaintext
  Spec_Tree Spec_Bintype Spec_Models Spec_Oleprops Spec_Layouts Spec_XmlElement.
From Verif Require Model_Html Spec_Html Spec_Opendoc.
Import ListNotations.
Open Scope string_scope.
Open Scope list_scope.
Open Scope Z_scope.

(** ** Document information

    Types of the records that paragraphs, texts and styles refer to, and of the
    record they belong to. *)
Definition shape_types : list string := "IdMappings" :: Spec_Html.shapes.
Definition type_of (rm : record * model) : string := m_type (snd rm).
Fixpoint all_items {A} (f : forest A) : list A := match f with FNil => [] | FCons x k n => x :: all_items k ++ all_items n end.
Fixpoint trees {A} (f : forest A) : list (A * forest A) := match f with FNil => [] | FCons x k n => (x, k) :: trees n end.
Definition without_shapes (l : list (record * model)) : Prop := Forall (fun rm => ~ In (type_of rm) shape_types) l.
(** One IdMappings record, at the top, and the shapes directly in it: of all
    records, that record and those in it. *)
Inductive one_mappings : forest (record * model) -> record * model -> forest (record * model) -> Prop :=
| om : forall before x kids after, type_of x = "IdMappings" -> without_shapes (all_items before) -> without_shapes (all_items after) ->
    Forall (fun t => type_of (fst t) <> "IdMappings" /\ without_shapes (all_items (snd t))) (trees kids) ->
    one_mappings (fapp before (FCons x kids after)) x kids.
Definition of_type (s : string) (l : list (record * model)) : list (record * model) := filter (fun rm => String.eqb (type_of rm) s) l.
Definition shapes_of (s : string) (kids : forest (record * model)) : list (record * model) := of_type s (map fst (trees kids)).

(** ** Nodes for records *)
Definition xattr (name : list Z) (x : xnode) : option (list Z) :=
  match x with Element _ attrs _ => Model_Html.lookup name attrs | Characters _ => None end.
(** Numbers, texts, colours and groups of bits are attributes of the node. *)
Record made_for (m : model) (x : xnode) : Prop := mkMadeFor {
  mf_name : named_node (m_type m) x = true;
  mf_number : forall key n t, In (key, VInt n) (m_content m) -> key <> "<text>" -> form_of (m_type m) key = Plain -> decimal t n ->
    xattr (attribute_name key) x = Some t;
  mf_text : forall key t, In (key, VText t) (m_content m) -> key <> "<text>" -> form_of (m_type m) key = Plain -> ~ In 0 t ->
    xattr (attribute_name key) x = Some t;
  mf_color : forall key n, In (key, VInt n) (m_content m) -> form_of (m_type m) key = Color -> xattr (attribute_name key) x = Some (color_text n);
  mf_bits : forall key v n gs w name g t, In (key, v) (m_content m) -> view_of v = Flags n gs -> form_of (m_type m) key = Hex w ->
    In (name, g) gs -> group_text g t -> ~ In 0 t -> xattr (attribute_name name) x = Some t
}.

(** ** Sections

    The records at the top of a section, which are its paragraphs, and the
    paragraphs of a section in the document, in columns or not. *)
Definition top_records (out : list (record * model)) : list (record * model) := filter (fun rm => r_level (fst rm) =? 0) out.
Definition flow (section : xnode) : list xnode :=
  flat_map (fun k => if named_node "Paragraph" k then [k] else if named_node "ColumnSet" k then children_named "Paragraph" k else []) (kids_of_node section).

(** ** Documents

    The records of the document information as a forest. *)
Definition docinfo_records (version : list Z) (records : list record) (f : forest (record * model)) : Prop :=
  exists out, models_of version Finished [] records out Finished /\ preorder 0 f = map (fun rm => (r_level (fst rm), rm)) out.
(** The page definition of a section: the record after that of the section
    definition, in it, and the only one. *)
Definition page_record (out : list (record * model)) (rp : record * model) : Prop :=
  exists before rs after, out = before ++ rs :: rp :: after /\ type_of rs = "SectionDef" /\ type_of rp = "PageDef" /\ r_level (fst rp) = r_level (fst rs) + 1 /\
    Forall (fun rm => type_of rm <> "SectionDef" /\ type_of rm <> "PageDef") (before ++ after).
(** The node [y] of a section: its number, its page, and its paragraphs, which are those made
    for the records at the top, in order, perhaps after others. *)
Record section_node (version : list Z) (s : Z * list record) (y : xnode) : Prop := mkSectionNode {
  sc_name : named_node "SectionDef" y = true;
  sc_number : forall t, decimal t (fst s) -> xattr (zs "section-id") y = Some t;
  sc_flow : forall out, models_of version Finished [] (snd s) out Finished ->
    exists front back, flow y = front ++ back /\ Forall2 (fun rm p => made_for (snd rm) p) (top_records out) back;
  sc_page : forall out rp, models_of version Finished [] (snd s) out Finished -> page_record out rp ->
    exists p, children_named "PageDef" y = [p] /\ made_for (snd rp) p
}.
(** A document made from a file: [x] is the IdMappings record and [kids] what is
    in it. *)
Record document_of (version : list Z) (x : record * model) (kids : forest (record * model)) (sections : list (Z * list record))
    (document : list xnode) (m d b : xnode) : Prop := mkDocumentOf {
  do_mapped : Spec_Html.mapped document m;
  do_document : filter (named_node "HwpDoc") document = [d];
  do_info : List.length (children_named "DocInfo" d) = 1%nat;
  do_body : children_named "BodyText" d = [b];
  do_numbered : Spec_Opendoc.all_numbered document;
  do_mappings : made_for (snd x) m;
  do_shapes : forall s, In s Spec_Html.shapes -> Forall2 (fun rm y => made_for (snd rm) y) (shapes_of s kids) (children_named s m);
  do_sections : Forall2 (section_node version) sections (children_named "SectionDef" b) /\ children_named "SectionDef" b = kids_of_node b
}.

(** ** Records that refer to others

    A number that counts from 0 in a list of records; groups of bits by the name of
    their value. *)
Definition points (key : string) (rm : record * model) (l : list (record * model)) (rm' : record * model) : Prop :=
  exists k, In (key, VInt (Z.of_nat k)) (m_content (snd rm)) /\ nth_error l k = Some rm'.
Definition chosen_bits (key group name : string) (rm : record * model) : Prop :=
  exists v n gs k, In (key, v) (m_content (snd rm)) /\ view_of v = Flags n gs /\ In (group, (k, Some name)) gs.
Definition bit_is (key group : string) (n : Z) (rm : record * model) : Prop :=
  exists v w gs, In (key, v) (m_content (snd rm)) /\ view_of v = Flags w gs /\ In (group, (n, None)) gs.
Definition texts_are (key : string) (l : list (record * model)) (ts : list (list Z)) : Prop :=
  Forall2 (fun rm t => In (key, VText t) (m_content (snd rm)) /\ ~ In 0 t) l ts.
(** Alignments in records and in OpenDocument and CSS. *)
Definition alignments : list (string * string) :=
  [("BOTH", "justify"); ("LEFT", "left"); ("RIGHT", "right"); ("CENTER", "center"); ("DISTRIBUTE", "justify"); ("DISTRIBUTE_SPACE", "justify")].
(** Names of styles as OpenDocument and CSS have them, different from each other and
    from all that is named by the converters. *)
Definition local_fine (ts : list (list Z)) : Prop :=
  let safe := map (fun t => map (fun c => if existsb (Z.eqb c) Spec_Opendoc.not_in_names then 95 else c) t) ts in
  NoDup safe /\ Forall (fun t => ~ In t (map zs Spec_Opendoc.always_there) /\ Spec_Html.begins (zs "Paragraph-") t = false) safe.
Definition css_fine (ts : list (list Z)) : Prop :=
  let safe := map (fun t => map (fun c => if c =? 32 then 45 else c) t) ts in
  NoDup safe /\ Forall (fun t => Spec_Html.identifier t = true /\ Spec_Html.reserved t = false) safe.
(** The tables of a document each have one body. *)
Definition whole_tables (document : list xnode) : Prop :=
  Forall (fun x => List.length (children_named "TableBody" x) = 1%nat) (Spec_Opendoc.nodes_named_in "TableControl" document).
