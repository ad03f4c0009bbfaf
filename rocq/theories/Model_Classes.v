(** The model classes of src/hwp5/binmodel: class hierarchy and the registries
    filled by the metaclasses. *)
From Coq Require Import ZArith String List Bool.
From Verif Require Import Base.
Import ListNotations.
Open Scope string_scope.
Open Scope list_scope.
Open Scope Z_scope.

(** A class: name, base class, and whether its body defines [attributes]
    ('attributes' in cls.__dict__, binmodel/__init__.py 401).  All model classes
    have one base.  The comments give file (under src/hwp5/binmodel) and line. *)
Record class_def := mkClass { cd_name : string; cd_base : string; cd_attributes : bool }.

Definition class_table : list class_def :=
 [mkClass "UnknownTagModel" "RecordModel" false; (* __init__.py:243 *)
  mkClass "RecordModel" "object" false; (* _shared.py:60 *)
  mkClass "DocumentProperties" "RecordModel" true; (* tagid16_document_properties.py:29 *)
  mkClass "IdMappings" "RecordModel" true; (* tagid17_id_mappings.py:28 *)
  mkClass "BinData" "RecordModel" true; (* tagid18_bin_data.py:55 *)
  mkClass "FaceName" "RecordModel" true; (* tagid19_face_name.py:100 *)
  mkClass "BorderFill" "RecordModel" true; (* tagid20_border_fill.py:36 *)
  mkClass "CharShape" "RecordModel" true; (* tagid21_char_shape.py:54 *)
  mkClass "TabDef" "RecordModel" true; (* tagid22_tab_def.py:47 *)
  mkClass "Numbering" "RecordModel" true; (* tagid23_numbering.py:57 *)
  mkClass "Bullet" "RecordModel" true; (* tagid24_bullet.py:40 *)
  mkClass "ParaShape" "RecordModel" true; (* tagid25_para_shape.py:34 *)
  mkClass "Style" "RecordModel" true; (* tagid26_style.py:33 *)
  mkClass "DocData" "RecordModel" false; (* tagid27_doc_data.py:27 *)
  mkClass "DistributeDocData" "RecordModel" false; (* tagid28_distribute_doc_data.py:27 *)
  mkClass "CompatibleDocument" "RecordModel" true; (* tagid30_compatible_document.py:30 *)
  mkClass "LayoutCompatibility" "RecordModel" true; (* tagid31_layout_compatibility.py:28 *)
  mkClass "TagModel32" "RecordModel" false; (* tagid32_unknown.py:27 *)
  mkClass "Paragraph" "RecordModel" true; (* tagid50_para_header.py:31 *)
  mkClass "ParaText" "RecordModel" true; (* tagid51_para_text.py:55 *)
  mkClass "ParaCharShape" "RecordModel" true; (* tagid52_para_char_shape.py:35 *)
  mkClass "ParaLineSeg" "RecordModel" true; (* tagid53_para_line_seg.py:61 *)
  mkClass "ParaRangeTag" "RecordModel" true; (* tagid54_para_range_tag.py:46 *)
  mkClass "ListHeader" "RecordModel" true; (* tagid56_list_header.py:60 *)
  mkClass "TableCaption" "ListHeader" true; (* tagid56_list_header.py:89 *)
  mkClass "TableCell" "ListHeader" true; (* tagid56_list_header.py:110 *)
  mkClass "GShapeObjectCaption" "TableCaption" false; (* tagid56_list_header.py:128 *)
  mkClass "TextboxParagraphList" "ListHeader" true; (* tagid56_list_header.py:132 *)
  mkClass "HeaderFooterParagraphList" "ListHeader" true; (* tagid56_list_header.py:142 *)
  mkClass "HeaderParagraphList" "HeaderFooterParagraphList" false; (* tagid56_list_header.py:152 *)
  mkClass "FooterParagraphList" "HeaderFooterParagraphList" false; (* tagid56_list_header.py:156 *)
  mkClass "PageDef" "RecordModel" true; (* tagid57_page_def.py:31 *)
  mkClass "FootnoteShape" "RecordModel" true; (* tagid58_footnote_shape.py:34 *)
  mkClass "PageBorderFill" "RecordModel" true; (* tagid59_page_border_fill.py:32 *)
  mkClass "ShapeComponent" "RecordModel" true; (* tagid60_shape_component.py:115 *)
  mkClass "TableBody" "RecordModel" true; (* tagid61_table.py:48 *)
  mkClass "ShapeLine" "RecordModel" true; (* tagid62_shape_component_line.py:29 *)
  mkClass "ShapeRectangle" "RecordModel" true; (* tagid63_shape_component_rectangle.py:29 *)
  mkClass "ShapeEllipse" "RecordModel" true; (* tagid64_shape_component_ellipse.py:30 *)
  mkClass "ShapeArc" "RecordModel" true; (* tagid65_shape_component_arc.py:28 *)
  mkClass "ShapePolygon" "RecordModel" true; (* tagid66_shape_component_polygon.py:30 *)
  mkClass "ShapeCurve" "RecordModel" true; (* tagid67_shape_component_curve.py:30 *)
  mkClass "ShapeOLE" "RecordModel" true; (* tagid68_shape_component_ole.py:32 *)
  mkClass "ShapePicture" "RecordModel" true; (* tagid69_shape_component_picture.py:82 *)
  mkClass "ShapeContainer" "RecordModel" false; (* tagid70_shape_component_container.py:27 *)
  mkClass "ControlData" "RecordModel" false; (* tagid71_ctrl_data.py:44 *)
  mkClass "EqEdit" "RecordModel" true; (* tagid72_ctrl_eqedit.py:30 *)
  mkClass "ShapeTextArt" "RecordModel" false; (* tagid74_shape_component_textart.py:27 *)
  mkClass "FormObject" "RecordModel" false; (* tagid75_form_object.py:27 *)
  mkClass "MemoShape" "RecordModel" false; (* tagid76_memo_shape.py:27 *)
  mkClass "MemoList" "RecordModel" false; (* tagid77_memo_list.py:27 *)
  mkClass "ForbiddenChar" "RecordModel" false; (* tagid78_forbidden_char.py:27 *)
  mkClass "ChartData" "RecordModel" false; (* tagid79_chart_data.py:27 *)
  mkClass "ShapeUnknown" "RecordModel" false; (* tagid99_shape_component_unknown.py:27 *)
  mkClass "Control" "RecordModel" true; (* controls/_shared.py:45 *)
  mkClass "BookmarkControl" "Control" true; (* controls/bookmark_control.py:31 *)
  mkClass "BookmarkControlData" "ControlData" true; (* controls/bookmark_control.py:41 *)
  mkClass "ColumnsDef" "Control" true; (* controls/columns_def.py:50 *)
  mkClass "CommonControl" "Control" true; (* controls/common_controls.py:34 *)
  mkClass "Dutmal" "Control" true; (* controls/dutmal.py:31 *)
  mkClass "Field" "Control" true; (* controls/field.py:32 *)
  mkClass "FieldUnknown" "Field" false; (* controls/field.py:48 *)
  mkClass "FieldDate" "Field" false; (* controls/field.py:52 *)
  mkClass "FieldDocDate" "Field" false; (* controls/field.py:56 *)
  mkClass "FieldPath" "Field" false; (* controls/field.py:60 *)
  mkClass "FieldBookmark" "Field" false; (* controls/field.py:64 *)
  mkClass "FieldMailMerge" "Field" false; (* controls/field.py:68 *)
  mkClass "FieldCrossRef" "Field" false; (* controls/field.py:72 *)
  mkClass "FieldFormula" "Field" false; (* controls/field.py:76 *)
  mkClass "FieldClickHere" "Field" false; (* controls/field.py:80 *)
  mkClass "FieldClickHereData" "ControlData" false; (* controls/field.py:84 *)
  mkClass "FieldSummary" "Field" false; (* controls/field.py:88 *)
  mkClass "FieldUserInfo" "Field" false; (* controls/field.py:92 *)
  mkClass "FieldHyperLink" "Field" false; (* controls/field.py:96 *)
  mkClass "FieldRevisionSign" "Field" false; (* controls/field.py:104 *)
  mkClass "FieldRevisionDelete" "Field" false; (* controls/field.py:108 *)
  mkClass "FieldRevisionAttach" "Field" false; (* controls/field.py:112 *)
  mkClass "FieldRevisionClipping" "Field" false; (* controls/field.py:116 *)
  mkClass "FieldRevisionSawtooth" "Field" false; (* controls/field.py:120 *)
  mkClass "FieldRevisionThinking" "Field" false; (* controls/field.py:124 *)
  mkClass "FieldRevisionPraise" "Field" false; (* controls/field.py:128 *)
  mkClass "FieldRevisionLine" "Field" false; (* controls/field.py:132 *)
  mkClass "FieldRevisionSimpleChange" "Field" false; (* controls/field.py:136 *)
  mkClass "FieldRevisionHyperlink" "Field" false; (* controls/field.py:140 *)
  mkClass "FieldRevisionLineAttach" "Field" false; (* controls/field.py:144 *)
  mkClass "FieldRevisionLineLink" "Field" false; (* controls/field.py:148 *)
  mkClass "FieldRevisionLineTransfer" "Field" false; (* controls/field.py:152 *)
  mkClass "FieldRevisionRightMove" "Field" false; (* controls/field.py:156 *)
  mkClass "FieldRevisionLeftMove" "Field" false; (* controls/field.py:160 *)
  mkClass "FieldRevisionTransfer" "Field" false; (* controls/field.py:164 *)
  mkClass "FieldRevisionSimpleInsert" "Field" false; (* controls/field.py:168 *)
  mkClass "FieldRevisionSplit" "Field" false; (* controls/field.py:172 *)
  mkClass "FieldRevisionChange" "Field" false; (* controls/field.py:176 *)
  mkClass "FieldMemo" "Field" false; (* controls/field.py:180 *)
  mkClass "FieldPrivateInfoSecurity" "Field" false; (* controls/field.py:184 *)
  mkClass "GShapeObjectControl" "CommonControl" false; (* controls/gshape_object_control.py:27 *)
  mkClass "HeaderFooter" "Control" true; (* controls/header_footer.py:30 *)
  mkClass "Header" "HeaderFooter" false; (* controls/header_footer.py:41 *)
  mkClass "Footer" "HeaderFooter" false; (* controls/header_footer.py:46 *)
  mkClass "HiddenComment" "Control" true; (* controls/hidden_comment.py:27 *)
  mkClass "IndexMarker" "Control" true; (* controls/index_marker.py:29 *)
  mkClass "Note" "Control" true; (* controls/note.py:29 *)
  mkClass "FootNote" "Note" false; (* controls/note.py:40 *)
  mkClass "EndNote" "Note" false; (* controls/note.py:45 *)
  mkClass "NumberingControl" "Control" true; (* controls/numbering.py:32 *)
  mkClass "AutoNumbering" "NumberingControl" true; (* controls/numbering.py:48 *)
  mkClass "NewNumbering" "NumberingControl" false; (* controls/numbering.py:67 *)
  mkClass "PageHide" "Control" true; (* controls/page_hide.py:29 *)
  mkClass "PageNumberPosition" "Control" true; (* controls/page_number_position.py:31 *)
  mkClass "PageOddEven" "Control" true; (* controls/page_odd_even.py:30 *)
  mkClass "SectionDef" "Control" true; (* controls/section_def.py:34 *)
  mkClass "SectionDefData" "ControlData" true; (* controls/section_def.py:68 *)
  mkClass "TableControl" "CommonControl" false; (* controls/table_control.py:28 *)
  mkClass "TCPSControl" "Control" true; (* controls/tcps_control.py:28 *)
  mkClass "LineSeg" "Struct" true; (* tagid53_para_line_seg.py:37 *)
  mkClass "Text" "object" false; (* __init__.py:247 *)
  mkClass "ControlChar" "object" false; (* controlchar.py:122 *)
  mkClass "ColumnSet" "object" false; (* ../xmlmodel.py:281 *)
  mkClass "TableRow" "object" false (* ../xmlmodel.py:443 *) ].

(** The registry filled by RecordModelType (_shared.py 49-57): tagid to class.
    Every tag of tagids.py 24-78 has one (_check_tag_models, __init__.py 251-256). *)
Definition tag_models : list (Z * string) :=
 [(16, "DocumentProperties");
  (17, "IdMappings");
  (18, "BinData");
  (19, "FaceName");
  (20, "BorderFill");
  (21, "CharShape");
  (22, "TabDef");
  (23, "Numbering");
  (24, "Bullet");
  (25, "ParaShape");
  (26, "Style");
  (27, "DocData");
  (28, "DistributeDocData");
  (30, "CompatibleDocument");
  (31, "LayoutCompatibility");
  (32, "TagModel32");
  (66, "Paragraph");
  (67, "ParaText");
  (68, "ParaCharShape");
  (69, "ParaLineSeg");
  (70, "ParaRangeTag");
  (72, "ListHeader");
  (73, "PageDef");
  (74, "FootnoteShape");
  (75, "PageBorderFill");
  (76, "ShapeComponent");
  (77, "TableBody");
  (78, "ShapeLine");
  (79, "ShapeRectangle");
  (80, "ShapeEllipse");
  (81, "ShapeArc");
  (82, "ShapePolygon");
  (83, "ShapeCurve");
  (84, "ShapeOLE");
  (85, "ShapePicture");
  (86, "ShapeContainer");
  (87, "ControlData");
  (88, "EqEdit");
  (90, "ShapeTextArt");
  (91, "FormObject");
  (92, "MemoShape");
  (93, "MemoList");
  (94, "ForbiddenChar");
  (95, "ChartData");
  (115, "ShapeUnknown");
  (71, "Control") ].

(** The registry filled by ControlType (controls/_shared.py 34-42): chid to
    class; chid values from controlchar.py 42-107. *)
Definition control_models : list (string * string) :=
 [("bokm", "BookmarkControl");
  ("cold", "ColumnsDef");
  ("tdut", "Dutmal");
  ("%unk", "FieldUnknown");
  ("%dte", "FieldDate");
  ("%ddt", "FieldDocDate");
  ("%pat", "FieldPath");
  ("%bmk", "FieldBookmark");
  ("%mmg", "FieldMailMerge");
  ("%xrf", "FieldCrossRef");
  ("%fmu", "FieldFormula");
  ("%clk", "FieldClickHere");
  ("%smr", "FieldSummary");
  ("%usr", "FieldUserInfo");
  ("%hlk", "FieldHyperLink");
  ("%sig", "FieldRevisionSign");
  ("%%*d", "FieldRevisionDelete");
  ("%%*a", "FieldRevisionAttach");
  ("%%*C", "FieldRevisionClipping");
  ("%%*S", "FieldRevisionSawtooth");
  ("%%*T", "FieldRevisionThinking");
  ("%%*P", "FieldRevisionPraise");
  ("%%*L", "FieldRevisionLine");
  ("%%*c", "FieldRevisionSimpleChange");
  ("%%*h", "FieldRevisionHyperlink");
  ("%%*A", "FieldRevisionLineAttach");
  ("%%*i", "FieldRevisionLineLink");
  ("%%*t", "FieldRevisionLineTransfer");
  ("%%*r", "FieldRevisionRightMove");
  ("%%*l", "FieldRevisionLeftMove");
  ("%%*n", "FieldRevisionTransfer");
  ("%%*e", "FieldRevisionSimpleInsert");
  ("%spl", "FieldRevisionSplit");
  ("%%mr", "FieldRevisionChange");
  ("%%me", "FieldMemo");
  ("%cpr", "FieldPrivateInfoSecurity");
  ("gso ", "GShapeObjectControl");
  ("head", "Header");
  ("foot", "Footer");
  ("tcmt", "HiddenComment");
  ("idxm", "IndexMarker");
  ("fn  ", "FootNote");
  ("en  ", "EndNote");
  ("atno", "AutoNumbering");
  ("nwno", "NewNumbering");
  ("pghd", "PageHide");
  ("pgnp", "PageNumberPosition");
  ("pgct", "PageOddEven");
  ("secd", "SectionDef");
  ("tbl ", "TableControl");
  ("tcps", "TCPSControl") ].

(** The registry filled by ListHeaderType (tagid56_list_header.py 44-57):
    (parent model type, seen table body) to class. *)
Definition list_header_models : list ((string * bool) * string) :=
 [(("TableControl", false), "TableCaption");
  (("TableControl", true), "TableCell");
  (("GShapeObjectControl", false), "GShapeObjectCaption");
  (("ShapeComponent", false), "TextboxParagraphList");
  (("Header", false), "HeaderParagraphList");
  (("Footer", false), "FooterParagraphList") ].

(** The registry filled by ControlDataType (tagid71_ctrl_data.py 30-41): parent
    model type to class. *)
Definition control_data_models : list (string * string) :=
 [("BookmarkControl", "BookmarkControlData");
  ("FieldClickHere", "FieldClickHereData");
  ("SectionDef", "SectionDefData") ].

(** The base of a class; a class that is not in the table has none. *)
Definition class_base (c : string) : option string :=
  match find (fun d => String.eqb (cd_name d) c) class_table with
  | Some d => Some (cd_base d)
  | None => None
  end.

(** inspect.getmro / issubclass: the class and its bases, nearest first.  The
    fuel bounds the depth of the hierarchy; [class_mro_fuel] below is enough for
    the table. *)
Fixpoint mro (fuel : nat) (c : string) : list string :=
  match fuel with
  | O => [c]
  | S k => match class_base c with Some b => c :: mro k b | None => [c] end
  end.
Definition class_mro_fuel : nat := 8.
Definition issubclass (c base : string) : bool := existsb (String.eqb base) (mro class_mro_fuel c).
