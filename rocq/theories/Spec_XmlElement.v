(** Specification of the XML elements of record models: the attributes and the
    children of an element, for the members of a record as Spec_Layouts describes
    them. *)
From Coq Require Import ZArith String List Bool Permutation.
From Verif Require Import Base Model_Record Model_Tree Model_Bintype Model_Models Model_Embed Model_XmlText Spec_XmlText Spec_Filestructure Spec_Oleprops Spec_Layouts Spec_Embed.
Import ListNotations.
Open Scope string_scope.
Open Scope list_scope.
Open Scope Z_scope.

(** ** How members are written

    A member is one attribute with its plain text, unless it is one of these. *)
Inductive form : Type :=
| Plain
| Hex (digits : nat)                (* bits: the number, and an attribute for each group *)
| Color                             (* #rrggbb *)
| Char                              (* a character *)
| Storage                           (* BIN and four digits *)
| Box                               (* four attributes for the four sides *)
| Tuple                             (* a list in round brackets *)
| Child (name : string)             (* one child element *)
| Children (name : string)          (* a child element for each item, all in one Array element *)
| Colors                            (* a child element for each colour *)
| Chosen (member group : string) (names : list (Z * string)). (* one child element, named by a number *)

Arguments Hex _%nat_scope.
Definition forms : list (string * list (string * form)) :=
 [("Border", [("stroke_flags", Hex 2); ("width_flags", Hex 2); ("color", Color)]);
  ("BorderLine", [("color", Color); ("flags", Hex 8)]);
  ("FillColorPattern", [("background_color", Color); ("pattern_color", Color); ("pattern_type_flags", Hex 8)]);
  ("FillImage", [("flags", Hex 2); ("effect", Hex 2)]);
  ("FillGradation", [("type", Hex 2); ("center", Child "Coord32"); ("colors", Colors)]);
  ("BinDataEmbedding", [("storage_id", Storage)]);
  ("BinDataStorage", [("storage_id", Storage)]);
  ("Tab", [("flags", Hex 8)]);
  ("NumberingLevel", [("flags", Hex 8)]);
  ("LineSeg", [("lineseg_flags", Hex 8)]);
  ("RangeTag", [("tag", Hex 8)]);
  ("ScaleRotationMatrix", [("scaler", Child "Matrix"); ("rotator", Child "Matrix")]);
  ("PictureEffect", [("flags", Hex 8)]);
  ("ImageRect", [("p0", Child "Coord"); ("p1", Child "Coord"); ("p2", Child "Coord"); ("p3", Child "Coord")]);
  ("BinData", [("flags", Hex 4); ("bindata", Chosen "flags" "storage" [(0, "BinDataLink"); (1, "BinDataEmbedding"); (2, "BinDataStorage")])]);
  ("FaceName", [("flags", Hex 2); ("alternate_font", Child "AlternateFont"); ("panose1", Child "Panose1")]);
  ("BorderFill", [("borderflags", Hex 4); ("left", Child "Border"); ("right", Child "Border"); ("top", Child "Border"); ("bottom", Child "Border"); ("diagonal", Child "Border"); ("fillflags", Hex 8); ("fill_colorpattern", Child "FillColorPattern"); ("fill_gradation", Child "FillGradation"); ("fill_image", Child "FillImage")]);
  ("CharShape", [("font_face", Child "FontFace"); ("letter_width_expansion", Child "LetterWidthExpansion"); ("letter_spacing", Child "LetterSpacing"); ("relative_size", Child "RelativeSize"); ("position", Child "Position"); ("charshapeflags", Hex 8); ("shadow_space", Child "ShadowSpace"); ("text_color", Color); ("underline_color", Color); ("shade_color", Color); ("shadow_color", Color)]);
  ("TabDef", [("flags", Hex 8); ("tabs", Children "Tab")]);
  ("Numbering", [("levels", Children "NumberingLevel"); ("unknown", Tuple)]);
  ("Bullet", [("flags", Hex 8); ("char", Char)]);
  ("ParaShape", [("parashapeflags", Hex 8); ("flags2", Hex 8)]);
  ("Style", [("flags", Hex 2)]);
  ("CompatibleDocument", [("flags", Hex 8)]);
  ("Paragraph", [("text", Hex 8); ("controlmask", Hex 8); ("split", Hex 2)]);
  ("ListHeader", [("listflags", Hex 8)]);
  ("TableCaption", [("listflags", Hex 8); ("flags", Hex 8)]);
  ("TableCell", [("listflags", Hex 8); ("padding", Box)]);
  ("GShapeObjectCaption", [("listflags", Hex 8); ("flags", Hex 8)]);
  ("TextboxParagraphList", [("listflags", Hex 8); ("padding", Box)]);
  ("HeaderFooterParagraphList", [("listflags", Hex 8)]);
  ("HeaderParagraphList", [("listflags", Hex 8)]);
  ("FooterParagraphList", [("listflags", Hex 8)]);
  ("PageDef", [("attr", Hex 8)]);
  ("FootnoteShape", [("flags", Hex 8); ("usersymbol", Char); ("prefix", Char); ("suffix", Char); ("splitter_stroke_type", Hex 2); ("splitter_width", Hex 2); ("splitter_color", Color)]);
  ("PageBorderFill", [("flags", Hex 8); ("margin", Box)]);
  ("ShapeComponent", [("flags", Hex 8); ("rotation_center", Child "Coord"); ("translation", Child "Matrix"); ("scalerotations", Children "ScaleRotationMatrix"); ("border", Child "BorderLine"); ("fill_flags", Hex 4); ("fill_colorpattern", Child "FillColorPattern"); ("fill_gradation", Child "FillGradation"); ("fill_image", Child "FillImage"); ("line", Child "BorderLine")]);
  ("TableBody", [("flags", Hex 8); ("padding", Box); ("validZones", Children "ZoneInfo")]);
  ("ShapeLine", [("p0", Child "Coord"); ("p1", Child "Coord")]);
  ("ShapeRectangle", [("p0", Child "Coord"); ("p1", Child "Coord"); ("p2", Child "Coord"); ("p3", Child "Coord")]);
  ("ShapeEllipse", [("flags", Hex 8); ("center", Child "Coord"); ("axis1", Child "Coord"); ("axis2", Child "Coord"); ("start1", Child "Coord"); ("end1", Child "Coord"); ("start2", Child "Coord"); ("end2", Child "Coord")]);
  ("ShapeArc", [("center", Child "Coord"); ("axis1", Child "Coord"); ("axis2", Child "Coord")]);
  ("ShapePolygon", [("points", Children "Coord")]);
  ("ShapeCurve", [("points", Children "Coord")]);
  ("ShapeOLE", [("flags", Hex 8); ("storage_id", Storage); ("border", Child "BorderLine")]);
  ("ShapePicture", [("border", Child "BorderLine"); ("rect", Child "ImageRect"); ("clip", Child "ImageClip"); ("padding", Box); ("picture", Child "PictureInfo"); ("picture_effect", Child "PictureEffect")]);
  ("ColumnsDef", [("flags", Hex 4); ("column0", Child "Column0"); ("columns", Children "Column"); ("splitter", Child "Border")]);
  ("CommonControl", [("flags", Hex 8); ("margin", Box)]);
  ("Dutmal", [("position-flags", Hex 8); ("align-flags", Hex 8)]);
  ("Field", [("flags", Hex 8)]);
  ("FieldUnknown", [("flags", Hex 8)]);
  ("FieldDate", [("flags", Hex 8)]);
  ("FieldDocDate", [("flags", Hex 8)]);
  ("FieldPath", [("flags", Hex 8)]);
  ("FieldBookmark", [("flags", Hex 8)]);
  ("FieldMailMerge", [("flags", Hex 8)]);
  ("FieldCrossRef", [("flags", Hex 8)]);
  ("FieldFormula", [("flags", Hex 8)]);
  ("FieldClickHere", [("flags", Hex 8)]);
  ("FieldSummary", [("flags", Hex 8)]);
  ("FieldUserInfo", [("flags", Hex 8)]);
  ("FieldHyperLink", [("flags", Hex 8)]);
  ("FieldRevisionSign", [("flags", Hex 8)]);
  ("FieldRevisionDelete", [("flags", Hex 8)]);
  ("FieldRevisionAttach", [("flags", Hex 8)]);
  ("FieldRevisionClipping", [("flags", Hex 8)]);
  ("FieldRevisionSawtooth", [("flags", Hex 8)]);
  ("FieldRevisionThinking", [("flags", Hex 8)]);
  ("FieldRevisionPraise", [("flags", Hex 8)]);
  ("FieldRevisionLine", [("flags", Hex 8)]);
  ("FieldRevisionSimpleChange", [("flags", Hex 8)]);
  ("FieldRevisionHyperlink", [("flags", Hex 8)]);
  ("FieldRevisionLineAttach", [("flags", Hex 8)]);
  ("FieldRevisionLineLink", [("flags", Hex 8)]);
  ("FieldRevisionLineTransfer", [("flags", Hex 8)]);
  ("FieldRevisionRightMove", [("flags", Hex 8)]);
  ("FieldRevisionLeftMove", [("flags", Hex 8)]);
  ("FieldRevisionTransfer", [("flags", Hex 8)]);
  ("FieldRevisionSimpleInsert", [("flags", Hex 8)]);
  ("FieldRevisionSplit", [("flags", Hex 8)]);
  ("FieldRevisionChange", [("flags", Hex 8)]);
  ("FieldMemo", [("flags", Hex 8)]);
  ("FieldPrivateInfoSecurity", [("flags", Hex 8)]);
  ("GShapeObjectControl", [("flags", Hex 8); ("margin", Box)]);
  ("HeaderFooter", [("flags", Hex 8)]);
  ("Header", [("flags", Hex 8)]);
  ("Footer", [("flags", Hex 8)]);
  ("NumberingControl", [("flags", Hex 8)]);
  ("AutoNumbering", [("flags", Hex 8); ("usersymbol", Char); ("prefix", Char); ("suffix", Char)]);
  ("NewNumbering", [("flags", Hex 8)]);
  ("PageHide", [("flags", Hex 8)]);
  ("PageNumberPosition", [("flags", Hex 8); ("usersymbol", Char); ("prefix", Char); ("suffix", Char); ("dash", Char)]);
  ("PageOddEven", [("flags", Hex 8)]);
  ("SectionDef", [("flags", Hex 8)]);
  ("TableControl", [("flags", Hex 8); ("margin", Box)])].

Definition form_of (element member : string) : form :=
  match look element forms with
  | Some l => match look member l with Some f => f | None => Plain end
  | None => Plain
  end.

(** ** Texts *)

(** Exactly that many hexadecimal digits. *)
Definition digit (upper : bool) (d : Z) : Z := if d <? 10 then 48 + d else (if upper then 55 else 87) + d.
Fixpoint hexadecimals (upper : bool) (digits : nat) (n : Z) : list Z :=
  match digits with O => [] | S w => hexadecimals upper w (n / 16) ++ [digit upper (n mod 16)] end.

Definition red (n : Z) : Z := n mod 256.
Definition green (n : Z) : Z := n / 256 mod 256.
Definition blue (n : Z) : Z := n / 65536 mod 256.
Definition alpha (n : Z) : Z := n / 16777216 mod 256.
Definition color_text (n : Z) : list Z :=
  zs "#" ++ hexadecimals false 2 (red n) ++ hexadecimals false 2 (green n) ++ hexadecimals false 2 (blue n).

(** Private use code points of symbol fonts, and the character shown instead. *)
Definition symbols : list (Z * Z) :=
  [(61510, 9758); (61548, 9679); (61599, 8226); (61601, 9675); (61550, 9632); (61607, 9642); (61551, 9744);
   (61557, 9670); (61559, 11049); (61558, 10070); (61604, 9673); (61611, 9733); (61692, 10003); (61694, 9745)].
Definition char_text (n : Z) : list Z :=
  if n =? 0 then [] else
  match find (fun s => fst s =? n) symbols with Some (_, c) => [c] | None => [n] end.

Definition small_letter (c : Z) : Z := if (65 <=? c) && (c <=? 90) then c + 32 else c.
Definition dash (c : Z) : Z := if c =? 95 then 45 else c.
(** Names of attributes have dashes instead of underscores. *)
Definition attribute_name (s : string) : list Z := map dash (zs s).

Fixpoint comma_separated (l : list (list Z)) : list Z :=
  match l with [] => [] | [t] => t | t :: r => t ++ zs ", " ++ comma_separated r end.

Section Element.
  (** Python's repr of a float or of a text, and the text of a Python object. *)
  Variable repr : view -> list Z.
  Variable object : list Z.

  Inductive item_text : view -> list Z -> Prop :=
  | it_int : forall n t, decimal t n -> item_text (Int n) t
  | it_text : forall s, item_text (Text s) (repr (Text s)).

  Inductive plain_text : view -> list Z -> Prop :=
  | pt_int : forall n t, decimal t n -> plain_text (Int n) t
  | pt_text : forall s, plain_text (Text s) s
  | pt_bytes : forall b, plain_text (Bytes b) (zs "b'" ++ b ++ zs "'")
  | pt_real : forall n, plain_text (Double n) (repr (Double n))
  | pt_list : forall l ts, Forall2 item_text l ts -> plain_text (Items l) (zs "[" ++ comma_separated ts ++ zs "]").

  (** The name of the number in small letters, or the number. *)
  Inductive group_text : Z * option string -> list Z -> Prop :=
  | gt_named : forall n s, group_text (n, Some s) (map small_letter (zs s))
  | gt_number : forall n t, decimal t n -> group_text (n, None) t.

  (** ** Attributes *)
  Inductive attributes_of : form -> string -> view -> list (list Z * list Z) -> Prop :=
  | ao_plain : forall key x t, key <> "<text>" -> plain_text x t -> attributes_of Plain key x [(attribute_name key, t)]
  | ao_character_data : forall x, attributes_of Plain "<text>" x []
  | ao_bits : forall w key n gs l, Forall2 (fun g a => fst a = attribute_name (fst g) /\ group_text (snd g) (snd a)) gs l ->
      attributes_of (Hex w) key (Flags n gs) ((attribute_name key, hexadecimals true w n) :: l)
  | ao_color : forall key n, attributes_of Color key (Int n) [(attribute_name key, color_text n)]
  | ao_char : forall key n, attributes_of Char key (Int n) [(attribute_name key, char_text n)]
  | ao_storage : forall key n, attributes_of Storage key (Int n) [(attribute_name key, zs "BIN" ++ hexadecimals true 4 n)]
  | ao_box : forall key l r t b tl tr tt tb, decimal tl l -> decimal tr r -> decimal tt t -> decimal tb b ->
      attributes_of Box key (Members [("left", Int l); ("right", Int r); ("top", Int t); ("bottom", Int b)])
        [(attribute_name (key ++ "-left"), tl); (attribute_name (key ++ "-right"), tr);
         (attribute_name (key ++ "-top"), tt); (attribute_name (key ++ "-bottom"), tb)]
  | ao_tuple : forall key l ts, List.length l <> 1%nat -> Forall2 item_text l ts ->
      attributes_of Tuple key (Items l) [(attribute_name key, zs "(" ++ comma_separated ts ++ zs ")")]
  | ao_child : forall f key x, match f with Child _ | Children _ | Colors | Chosen _ _ _ => True | _ => False end ->
      attributes_of f key x [].

  (** Two members can be missing although the record type has them: the data of
      a BinData record of unknown storage, and the row sizes of a table, which are
      taken away when its rows are made. *)
  Definition missing (name : string) (d : list (string * view)) : list (list Z * list Z) :=
    match look "bindata" d with
    | None => if String.eqb name "BinData" then [(zs "bindata", object)] else []
    | Some _ => []
    end ++
    match look "rowcols" d with
    | None => if String.eqb name "TableBody" then [(zs "rowcols", zs "()")] else []
    | Some _ => []
    end.

  (** ** Elements *)
  Inductive xtree : Type :=
  | Elem (name : list Z) (attributes : list (list Z * list Z)) (text : list Z) (children : list xtree).

  (** Character data: the member "<text>". *)
  Definition character_data (d : list (string * view)) : list Z :=
    match look "<text>" d with Some (Text t) => t | _ => [] end.

  Definition color_element (key : string) (n : Z) (r g b a : list Z) : xtree :=
    Elem (zs key) [(zs "r", r); (zs "g", g); (zs "b", b); (zs "alpha", a); (zs "hex", color_text n)] [] [].
  Inductive colors_of (key : string) : list view -> list xtree -> Prop :=
  | cs_none : colors_of key [] []
  | cs_color : forall n r g b a l ts, decimal r (red n) -> decimal g (green n) -> decimal b (blue n) -> decimal a (alpha n) ->
      colors_of key l ts -> colors_of key (Int n :: l) (color_element key n r g b a :: ts).

  (** [element name d t]: [t] is the element of something called [name] with the
      members [d].  The order of the attributes is not fixed. *)
  Inductive element : string -> list (string * view) -> xtree -> Prop :=
  | el : forall name d listed attrs kids,
      Forall2 (fun m l => attributes_of (form_of name (fst m)) (fst m) (snd m) l) d listed ->
      Permutation attrs (concat listed ++ missing name d) -> NoDup (map fst attrs) ->
      children name d d kids ->
      element name d (Elem (zs name) attrs (character_data d) kids)
  (** the children for some of the members [d] *)
  with children : string -> list (string * view) -> list (string * view) -> list xtree -> Prop :=
  | ch_end : forall name d, children name d [] []
  | ch_none : forall name d key x r ts,
      match form_of name key with Child _ | Children _ | Colors | Chosen _ _ _ => False | _ => True end ->
      children name d r ts -> children name d ((key, x) :: r) ts
  | ch_child : forall name d key c m r t ts, form_of name key = Child c ->
      element c (m ++ [("attribute-name", Text (zs key))]) t ->
      children name d r ts -> children name d ((key, Members m) :: r) (t :: ts)
  | ch_chosen : forall name d key member group names n c m r t ts, form_of name key = Chosen member group names ->
      look_group member group d = Some n -> In (n, c) names ->
      element c (m ++ [("attribute-name", Text (zs key))]) t ->
      children name d r ts -> children name d ((key, Members m) :: r) (t :: ts)
  | ch_array : forall name d key c l r us ts, form_of name key = Children c -> elements c l us ->
      children name d r ts ->
      children name d ((key, Items l) :: r) (Elem (zs "Array") [(zs "name", zs key)] [] us :: ts)
  | ch_colors : forall name d key l r us ts, form_of name key = Colors -> colors_of key l us ->
      children name d r ts -> children name d ((key, Items l) :: r) (us ++ ts)
  with elements : string -> list view -> list xtree -> Prop :=
  | es_end : forall c, elements c [] []
  | es_item : forall c m l t ts, element c m t -> elements c l ts -> elements c (Members m :: l) (t :: ts).
End Element.

(** The events of an element, without and with its end. *)
Fixpoint events_of (t : xtree) : list xevent :=
  match t with
  | Elem name attrs text kids =>
      XStart name attrs :: (match text with [] => [] | _ => [XText text] end) ++ flat_map events_of kids ++ [XEnd name]
  end.
Definition opening (t : xtree) : list xevent :=
  match t with
  | Elem name attrs text kids => XStart name attrs :: (match text with [] => [] | _ => [XText text] end) ++ flat_map events_of kids
  end.

(** ** Names an element can have attributes of *)
Definition attribute_names (key : string) (f : form) (k : kind) : list (list Z) :=
  match f with
  | Hex _ => attribute_name key :: match k with Bits _ gs => map (fun g => match g with Group n _ _ _ => attribute_name n end) gs | _ => [] end
  | Box => map (fun side => attribute_name (key ++ "-" ++ side)) ["left"; "right"; "top"; "bottom"]
  | Child _ | Children _ | Colors => []
  | _ => [attribute_name key]
  end.
Definition possible_names (name : string) (parts : list (list field_spec)) : list (list Z) :=
  flat_map (fun f => match f with (key, _, _, k) => attribute_names key (form_of name key) k end) (concat parts).
Definition member_names (parts : list (list field_spec)) : list string := map (fun f => fst (fst (fst f))) (concat parts).

(** Attributes added to those of a record: numbers and texts with other names. *)
Definition addable (name : string) (parts : list (list field_spec)) (more : list (string * view)) : Prop :=
  NoDup (map (fun m => attribute_name (fst m)) more) /\
  Forall (fun m => form_of name (fst m) = Plain /\ ~ In (fst m) (member_names parts) /\ ~ In (attribute_name (fst m)) (possible_names name parts) /\
                   match snd m with Int _ => fst m <> "<text>" | Text _ => True | _ => False end) more.

(** Types whose records are not written: the text of a paragraph and what
    belongs to it become Text elements and the like (C62). *)
Definition unwritten : list string := ["ParaText"; "ParaCharShape"; "ParaLineSeg"; "ParaRangeTag"].

(** ** What is done to the members of a record before it is written

    The rows of a table are made from the row sizes, which are then gone
    (xmlmodel.py).  Embedded data becomes the character data of the element
    (C56).  Other entries may be added. *)
Definition annotations (x : list (string * value)) : Prop :=
  NoDup (map fst x) /\ Forall (fun kv => In (fst kv) ["<text>"; "inline"] /\ exists t, snd kv = VText t) x.
Inductive kept (type : string) : list (string * value) -> list (string * value) -> Prop :=
| kp_end : kept type [] []
| kp_same : forall m l l', kept type l l' -> kept type (m :: l) (m :: l')
| kp_rows : forall v l l', type = "TableBody" -> kept type l l' -> kept type (("rowcols", v) :: l) l'
| kp_data : forall d x l l', type = "BinData" -> annotations x -> kept type l l' ->
    kept type (("bindata", VDict d) :: l) (("bindata", VDict (d ++ x)) :: l').

(** ** Trees of elements *)

(** An element with more children, after its own. *)
Definition with_children (t : xtree) (more : list xtree) : xtree :=
  match t with Elem name attrs text kids => Elem name attrs text (kids ++ more) end.

(** [written shows f ts]: every item of [f] is shown as an element, in which its
    children follow. *)
Inductive written {A} (shows : A -> xtree -> Prop) : forest A -> list xtree -> Prop :=
| wr_none : written shows FNil []
| wr_item : forall x kids next t ks ts, shows x t -> written shows kids ks -> written shows next ts ->
    written shows (FCons x kids next) (with_children t ks :: ts).

(** Names are XML names, and no two attributes of an element have the same. *)
Inductive well_named : xtree -> Prop :=
| wn_elem : forall name attrs text kids, xml_name name -> NoDup (map fst attrs) -> Forall (fun a => xml_name (fst a)) attrs ->
    Forall well_named kids -> well_named (Elem name attrs text kids).
(** All characters can be written: C35 and C36 say which. *)
Inductive writable_text : xtree -> Prop :=
| wt_elem : forall name attrs text kids, Forall (fun a => Forall Spec_XmlText.legal (snd a)) attrs ->
    Forall (fun c => Spec_XmlText.legal c /\ c <> 13) text -> Forall writable_text kids -> writable_text (Elem name attrs text kids).

(** ** The document information

    The members of a record as they are written: with the embedded data (C37) if
    it is asked for. *)
Inductive shown_members (embedbin : option (list Z -> res (list Z))) (m : model) : list (string * value) -> Prop :=
| sm_as_read : embedbin = None -> shown_members embedbin m (m_content m)
| sm_embedded : forall read attrs, embedbin = Some read ->
    embedding read (mkBev true (m_type m) (m_content m)) (Ok (mkBev true (m_type m) attrs)) -> shown_members embedbin m attrs.
Definition shown_record (repr : view -> list Z) (object : list Z) (embedbin : option (list Z -> res (list Z))) (rm : record * model) (t : xtree) : Prop :=
  exists attrs, shown_members embedbin (snd rm) attrs /\ element repr object (m_type (snd rm)) (views attrs) t.
