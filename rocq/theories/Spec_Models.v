(** Specification of the record models: which type a record gets, what its
    parent is, and what is read from its payload. *)
From Coq Require Import ZArith String List Bool.
From Verif Require Import Base Model_Dataio Model_Record Model_Bintype Model_Layouts Model_Models Spec_Tree Spec_Bintype.
Import ListNotations.
Open Scope string_scope.
Open Scope list_scope.
Open Scope Z_scope.

(** ** The types of the format *)

(** HWPTAG_BEGIN is 16; the body text tags start at 66. *)
Definition type_of_tag (tagid : Z) : string :=
  match tagid with
  | 16 => "DocumentProperties" | 17 => "IdMappings" | 18 => "BinData" | 19 => "FaceName" | 20 => "BorderFill"
  | 21 => "CharShape" | 22 => "TabDef" | 23 => "Numbering" | 24 => "Bullet" | 25 => "ParaShape" | 26 => "Style"
  | 27 => "DocData" | 28 => "DistributeDocData" | 30 => "CompatibleDocument" | 31 => "LayoutCompatibility"
  | 32 => "TagModel32"
  | 66 => "Paragraph" | 67 => "ParaText" | 68 => "ParaCharShape" | 69 => "ParaLineSeg" | 70 => "ParaRangeTag"
  | 71 => "Control" | 72 => "ListHeader" | 73 => "PageDef" | 74 => "FootnoteShape" | 75 => "PageBorderFill"
  | 76 => "ShapeComponent" | 77 => "TableBody" | 78 => "ShapeLine" | 79 => "ShapeRectangle" | 80 => "ShapeEllipse"
  | 81 => "ShapeArc" | 82 => "ShapePolygon" | 83 => "ShapeCurve" | 84 => "ShapeOLE" | 85 => "ShapePicture"
  | 86 => "ShapeContainer" | 87 => "ControlData" | 88 => "EqEdit" | 90 => "ShapeTextArt" | 91 => "FormObject"
  | 92 => "MemoShape" | 93 => "MemoList" | 94 => "ForbiddenChar" | 95 => "ChartData" | 115 => "ShapeUnknown"
  | _ => "UnknownTagModel"
  end.

(** The four-letter control ids, by type. *)
Definition control_ids : list (string * string) :=
 [("TableControl", "tbl "); ("GShapeObjectControl", "gso ");
  ("SectionDef", "secd"); ("ColumnsDef", "cold"); ("Header", "head"); ("Footer", "foot");
  ("FootNote", "fn  "); ("EndNote", "en  "); ("AutoNumbering", "atno"); ("NewNumbering", "nwno");
  ("PageHide", "pghd"); ("PageOddEven", "pgct"); ("PageNumberPosition", "pgnp");
  ("IndexMarker", "idxm"); ("BookmarkControl", "bokm"); ("TCPSControl", "tcps");
  ("Dutmal", "tdut"); ("HiddenComment", "tcmt");
  ("FieldUnknown", "%unk"); ("FieldDate", "%dte"); ("FieldDocDate", "%ddt"); ("FieldPath", "%pat");
  ("FieldBookmark", "%bmk"); ("FieldMailMerge", "%mmg"); ("FieldCrossRef", "%xrf"); ("FieldFormula", "%fmu");
  ("FieldClickHere", "%clk"); ("FieldSummary", "%smr"); ("FieldUserInfo", "%usr"); ("FieldHyperLink", "%hlk");
  ("FieldRevisionSign", "%sig"); ("FieldRevisionDelete", "%%*d"); ("FieldRevisionAttach", "%%*a");
  ("FieldRevisionClipping", "%%*C"); ("FieldRevisionSawtooth", "%%*S"); ("FieldRevisionThinking", "%%*T");
  ("FieldRevisionPraise", "%%*P"); ("FieldRevisionLine", "%%*L"); ("FieldRevisionSimpleChange", "%%*c");
  ("FieldRevisionHyperlink", "%%*h"); ("FieldRevisionLineAttach", "%%*A"); ("FieldRevisionLineLink", "%%*i");
  ("FieldRevisionLineTransfer", "%%*t"); ("FieldRevisionRightMove", "%%*r"); ("FieldRevisionLeftMove", "%%*l");
  ("FieldRevisionTransfer", "%%*n"); ("FieldRevisionSimpleInsert", "%%*e"); ("FieldRevisionSplit", "%spl");
  ("FieldRevisionChange", "%%mr"); ("FieldMemo", "%%me"); ("FieldPrivateInfoSecurity", "%cpr")].

Definition is_control_type (t : string) (chid : list Z) : Prop := exists s, In (t, s) control_ids /\ zs s = chid.

(** A control is refined by its control id, a list header by what it is in, the
    data of a control by the control. *)
Inductive refined (parent : node) : string -> list (string * value) -> res (option string) -> Prop :=
| rf_control : forall d chid t, dict_get "chid" d = Some (VText chid) -> is_control_type t chid ->
    refined parent "Control" d (Ok (Some t))
| rf_control_unknown : forall d chid, dict_get "chid" d = Some (VText chid) -> (forall t, ~ is_control_type t chid) ->
    refined parent "Control" d (Ok None)
| rf_caption : forall d, n_type parent = Some "TableControl" -> n_seen parent = false ->
    refined parent "ListHeader" d (Ok (Some "TableCaption"))
| rf_cell : forall d, n_type parent = Some "TableControl" -> n_seen parent = true ->
    refined parent "ListHeader" d (Ok (Some "TableCell"))
| rf_shape_caption : forall d, n_type parent = Some "GShapeObjectControl" -> n_seen parent = false ->
    refined parent "ListHeader" d (Ok (Some "GShapeObjectCaption"))
| rf_textbox : forall d, n_type parent = Some "ShapeComponent" -> n_seen parent = false ->
    refined parent "ListHeader" d (Ok (Some "TextboxParagraphList"))
| rf_header : forall d, n_type parent = Some "Header" -> n_seen parent = false ->
    refined parent "ListHeader" d (Ok (Some "HeaderParagraphList"))
| rf_footer : forall d, n_type parent = Some "Footer" -> n_seen parent = false ->
    refined parent "ListHeader" d (Ok (Some "FooterParagraphList"))
| rf_list_plain : forall d t, n_type parent = Some t -> t <> "TableControl" ->
    (n_seen parent = false -> ~ In t ["GShapeObjectControl"; "ShapeComponent"; "Header"; "Footer"]) ->
    refined parent "ListHeader" d (Ok None)
| rf_list_top : forall d, n_type parent = None -> refined parent "ListHeader" d (Raise KeyError)
| rf_bookmark_data : forall d, n_type parent = Some "BookmarkControl" ->
    refined parent "ControlData" d (Ok (Some "BookmarkControlData"))
| rf_click_data : forall d, n_type parent = Some "FieldClickHere" ->
    refined parent "ControlData" d (Ok (Some "FieldClickHereData"))
| rf_section_data : forall d, n_type parent = Some "SectionDef" ->
    refined parent "ControlData" d (Ok (Some "SectionDefData"))
| rf_data_plain : forall d t, n_type parent = Some t -> ~ In t ["BookmarkControl"; "FieldClickHere"; "SectionDef"] ->
    refined parent "ControlData" d (Ok None)
| rf_data_top : forall d, n_type parent = None -> refined parent "ControlData" d (Raise KeyError)
| rf_other : forall base d, ~ In base ["Control"; "ListHeader"; "ControlData"] -> refined parent base d (Ok None).

(** What a refined type reads after the general members: the declarations of the
    kinds it is an instance of, the most general one first. *)
Definition refinement_layouts (t : string) : list string :=
  if existsb (String.eqb t) ["TableControl"; "GShapeObjectControl"] then ["CommonControl"]
  else if existsb (String.eqb t) ["Header"; "Footer"] then ["HeaderFooter"]
  else if existsb (String.eqb t) ["FootNote"; "EndNote"] then ["Note"]
  else if String.eqb t "AutoNumbering" then ["NumberingControl"; "AutoNumbering"]
  else if String.eqb t "NewNumbering" then ["NumberingControl"]
  else if String.eqb t "GShapeObjectCaption" then ["TableCaption"]
  else if existsb (String.eqb t) ["HeaderParagraphList"; "FooterParagraphList"] then ["HeaderFooterParagraphList"]
  else if String.eqb t "FieldClickHereData" then []
  else if existsb (String.eqb t)
    ["SectionDef"; "ColumnsDef"; "PageHide"; "PageOddEven"; "PageNumberPosition"; "IndexMarker"; "BookmarkControl";
     "TCPSControl"; "Dutmal"; "HiddenComment"; "TableCaption"; "TableCell"; "TextboxParagraphList";
     "BookmarkControlData"; "SectionDefData"] then [t]
  else ["Field"].

(** ** Reading one record *)

(** The declaration of a class, read as it is written down ([rd]). *)
Definition layout (version : list Z) (parent : node) (c : string) (s : stream) : sres node (list (string * value)) :=
  andthen node (rd node parent (Some version) None None None (class_type c) s)
    (fun v s => match v with Some (VDict d) => ret node d s | _ => fail node s TypeError end).

(** Later members replace earlier ones of the same name. *)
Definition overwritten (d e : list (string * value)) : list (string * value) :=
  fold_left (fun d kv => dict_set (fst kv) (snd kv) d) e d.

Fixpoint layouts (version : list Z) (parent : node) (cs : list string) (d : list (string * value)) (s : stream)
  : sres node (list (string * value)) :=
  match cs with
  | [] => ret node d s
  | c :: r => andthen node (layout version parent c s) (fun e s => layouts version parent r (overwritten d e) s)
  end.

(** [reads version parent tagid payload r]: the model of a record, or why it
    cannot be read. *)
Inductive reads (version : list Z) (parent : node) (tagid : Z) (payload : list Z) : res model -> Prop :=
| rs_plain : forall d tr s,
    layout version parent (type_of_tag tagid) (open_bytes payload) = (tr, s, Some (Ok d)) ->
    refined parent (type_of_tag tagid) d (Ok None) ->
    reads version parent tagid payload (Ok (mkModel (type_of_tag tagid) d tr (s_rest s)))
| rs_refined : forall d0 d tr0 tr1 s0 s t,
    layout version parent (type_of_tag tagid) (open_bytes payload) = (tr0, s0, Some (Ok d0)) ->
    refined parent (type_of_tag tagid) d0 (Ok (Some t)) ->
    layouts version parent (refinement_layouts t) d0 s0 = (tr1, s, Some (Ok d)) ->
    reads version parent tagid payload (Ok (mkModel t d (tr0 ++ tr1) (s_rest s)))
| rs_fails : forall tr s e,
    layout version parent (type_of_tag tagid) (open_bytes payload) = (tr, s, Some (Raise e)) ->
    reads version parent tagid payload (Raise e)
| rs_no_parent : forall d tr s e,
    layout version parent (type_of_tag tagid) (open_bytes payload) = (tr, s, Some (Ok d)) ->
    refined parent (type_of_tag tagid) d (Raise e) ->
    reads version parent tagid payload (Raise e)
| rs_refined_fails : forall d0 tr0 tr1 s0 s e t,
    layout version parent (type_of_tag tagid) (open_bytes payload) = (tr0, s0, Some (Ok d0)) ->
    refined parent (type_of_tag tagid) d0 (Ok (Some t)) ->
    layouts version parent (refinement_layouts t) d0 s0 = (tr1, s, Some (Raise e)) ->
    reads version parent tagid payload (Raise e).

(** ** The parent of a record *)

(** What precedes the last item satisfying [p], that item, and what follows. *)
Inductive last_such {A} (p : A -> Prop) (l : list A) : list A -> A -> list A -> Prop :=
| last_such_at : forall before x after, l = before ++ x :: after -> p x -> Forall (fun y => ~ p y) after ->
    last_such p l before x after.

(** The parent of a record of level [k] after the records [done]: the nearest
    record one level up, with its type and members, and whether it is a table
    below which a table body was read already.  Without one, the root. *)
Inductive parent_of (k : Z) (done : list (record * model)) : node -> Prop :=
| po_record : forall before r m after seen,
    last_such (fun rm => r_level (fst rm) = k - 1) done before (r, m) after ->
    (seen = true <-> m_type m = "TableControl" /\
       exists r' m', In (r', m') after /\ r_level r' = k /\ m_type m' = "TableBody") ->
    parent_of k done (mkNode (Some (m_type m)) (Some (VDict (m_content m))) seen)
| po_root : Forall (fun rm => r_level (fst rm) <> k - 1) done -> parent_of k done (mkNode None None false).

(** Levels that may follow, and those that may not: more than one below the
    last record, or above the first one. *)
Definition too_deep (done : list (record * model)) (k : Z) : Prop :=
  exists before r m, done = before ++ [(r, m)] /\ r_level r + 1 < k.
Definition above_first (done : list (record * model)) (k : Z) : Prop :=
  exists r m after, done = (r, m) :: after /\ k < r_level r.
Definition level_fits (done : list (record * model)) (k : Z) : Prop := ~ too_deep done k /\ ~ above_first done k.

(** [models_of version done todo o out o']: reading the records [todo] after
    [done]. *)
Inductive models_of (version : list Z) (o : outcome) : list (record * model) -> list record -> list (record * model) -> outcome -> Prop :=
| mo_end : forall done, models_of version o done [] [] o
| mo_next : forall done r rest parent m out o',
    level_fits done (r_level r) -> parent_of (r_level r) done parent ->
    reads version parent (r_tagid r) (r_payload r) (Ok m) ->
    models_of version o (done ++ [(r, m)]) rest out o' ->
    models_of version o done (r :: rest) ((r, m) :: out) o'
| mo_fails : forall done r rest parent e,
    level_fits done (r_level r) -> parent_of (r_level r) done parent ->
    reads version parent (r_tagid r) (r_payload r) (Raise e) ->
    models_of version o done (r :: rest) [] (Failed e)
| mo_too_deep : forall done r rest, too_deep done (r_level r) -> models_of version o done (r :: rest) [] (Failed InvalidLevel)
| mo_above_first : forall done r rest, above_first done (r_level r) -> models_of version o done (r :: rest) [] (Failed IndexError).

(** ** Streams of trees *)
Inductive trees_of (version : list Z) (o : outcome) : list (list record) -> list (record * model) -> outcome -> Prop :=
| to_end : trees_of version o [] [] o
| to_tree : forall g gs out out' o', models_of version Finished [] g out Finished -> trees_of version o gs out' o' ->
    trees_of version o (g :: gs) (out ++ out') o'
| to_fails : forall g gs out e, models_of version Finished [] g out (Failed e) -> trees_of version o (g :: gs) out (Failed e).

(** ** Face names *)
Definition languages : list string := ["ko"; "en"; "cn"; "jp"; "other"; "symbol"; "user"].

Fixpoint sum (l : list nat) : nat := match l with [] => O | x :: r => (x + sum r)%nat end.

(** Consecutive blocks of a list. *)
Fixpoint blocks {A} (counts : list nat) (l : list A) : list (list A) :=
  match counts with [] => [] | n :: r => firstn n l :: blocks r (skipn n l) end.

(** The counts declared by the mappings: [counts] has one per language. *)
Definition declares (m : model) (counts : list nat) : Prop :=
  Forall2 (fun lang n => dict_get (lang ++ "_fonts") (m_content m) = Some (VInt (Z.of_nat n))) languages counts.

(** The models of one type, in order. *)
Definition of_type (t : string) (ms : list (record * model)) : list model :=
  filter (fun m => String.eqb (m_type m) t) (map snd ms).
