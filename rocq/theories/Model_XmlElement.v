(** Model of the conversion of model events to XML events: src/hwp5/xmlformat.py
    56-239 and dataio.py 523-588 (typed_struct_attributes, parse_members).
    Texts are lists of code points. *)
From Coq Require Import ZArith String List Bool.
From Verif Require Import Base Model_Text Model_Dataio Model_Record Model_Tree Model_ParaText Model_Bintype Model_Classes Model_Layouts Model_Models Model_Embed Model_XmlText.
Import ListNotations.
Open Scope string_scope.
Open Scope list_scope.
Open Scope Z_scope.

(** ** The declared types, as far as xmlformat.py distinguishes them

    The layouts of Model_Layouts say how a member is read; here is what the
    member's type is besides that: one of the types COLORREF, WCHAR,
    BinStorageId, Margin, a struct with its [__name__], an array, a selection;
    [FPlain] for all others.  A struct and a record type list the members that
    are not plain. *)
Inductive face : Type :=
| FPlain
| FColor
| FWchar
| FStorage
| FMargin
| FStruct (name : string) (members : list (string * face))
| FArray (item : face)
| FSel (l : list face).
Definition faces : Type := list (string * face).
Definition face_of (name : string) (l : faces) : face :=
  match dict_get name l with Some f => f | None => FPlain end.

(** _shared.py 103-105 *)
Definition FC_Coord : face := FStruct "Coord" [].

(** _shared.py 142-145 *)
Definition FC_Border : face := FStruct "Border" [("color", FColor)].

(** _shared.py 169-172 *)
Definition FC_BorderLine : face := FStruct "BorderLine" [("color", FColor)].

(** _shared.py 181-182 *)
Definition FC_FillNone : face := FStruct "FillNone" [].

(** _shared.py 193-196 *)
Definition FC_FillColorPattern : face := FStruct "FillColorPattern" [("background_color", FColor); ("pattern_color", FColor)].

(** _shared.py 227-232 *)
Definition FC_FillImage : face := FStruct "FillImage" [].

(** _shared.py 237-239 *)
Definition FC_Coord32 : face := FStruct "Coord32" [].

(** _shared.py 249-256 *)
Definition FC_FillGradation : face := FStruct "FillGradation" [("center", FC_Coord32); ("colors", FArray FColor)].

(** tagid18_bin_data.py 36-38 *)
Definition FC_BinDataLink : face := FStruct "BinDataLink" [].

(** tagid18_bin_data.py 43-45 *)
Definition FC_BinDataEmbedding : face := FStruct "BinDataEmbedding" [("storage_id", FStorage)].

(** tagid18_bin_data.py 50-51 *)
Definition FC_BinDataStorage : face := FStruct "BinDataStorage" [("storage_id", FStorage)].

(** tagid18_bin_data.py 69-76 *)
Definition FM_BinData : faces := [("bindata", FSel [FC_BinDataLink; FC_BinDataEmbedding; FC_BinDataStorage])].

(** tagid19_face_name.py 33-35 *)
Definition FC_AlternateFont : face := FStruct "AlternateFont" [].

(** tagid19_face_name.py 86-96 *)
Definition FC_Panose1 : face := FStruct "Panose1" [].

(** tagid19_face_name.py 115-135 *)
Definition FM_FaceName : faces := [("alternate_font", FC_AlternateFont); ("panose1", FC_Panose1)].

(** tagid20_border_fill.py 54-85 *)
Definition FM_BorderFill : faces := [("left", FC_Border); ("right", FC_Border); ("top", FC_Border); ("bottom", FC_Border); ("diagonal", FC_Border); ("fill_colorpattern", FC_FillColorPattern); ("fill_gradation", FC_FillGradation); ("fill_image", FC_FillImage)].

(** tagid21_char_shape.py 48-50 *)
Definition FC_ShadowSpace : face := FStruct "ShadowSpace" [].

(** tagid21_char_shape.py 73-87 *)
Definition FM_CharShape : faces := [("font_face", FStruct "FontFace" []); ("letter_width_expansion", FStruct "LetterWidthExpansion" []); ("letter_spacing", FStruct "LetterSpacing" []); ("relative_size", FStruct "RelativeSize" []); ("position", FStruct "Position" []); ("shadow_space", FC_ShadowSpace); ("text_color", FColor); ("underline_color", FColor); ("shade_color", FColor); ("shadow_color", FColor)].

(** tagid22_tab_def.py 42-44 *)
Definition FC_Tab : face := FStruct "Tab" [].

(** tagid22_tab_def.py 58-60 *)
Definition FM_TabDef : faces := [("tabs", FArray FC_Tab)].

(** tagid23_numbering.py 48-54 *)
Definition FC_NumberingLevel : face := FStruct "NumberingLevel" [].

(** tagid23_numbering.py 65-71 *)
Definition FM_Numbering : faces := [("levels", FArray FC_NumberingLevel); ("unknown", FArray FPlain)].

(** tagid24_bullet.py 46-52 *)
Definition FM_Bullet : faces := [("char", FWchar)].

(** tagid52_para_char_shape.py 39-43 *)
Definition FM_ParaCharShape : faces := [("charshapes", FArray (FArray FPlain))].

(** tagid53_para_line_seg.py 48-57 *)
Definition FC_LineSeg : face := FStruct "LineSeg" [].

(** tagid53_para_line_seg.py 66-69 *)
Definition FM_ParaLineSeg : faces := [("linesegs", FArray FC_LineSeg)].

(** tagid54_para_range_tag.py 40-43 *)
Definition FC_RangeTag : face := FStruct "RangeTag" [].

(** tagid54_para_range_tag.py 52-54 *)
Definition FM_ParaRangeTag : faces := [("range_tags", FArray FC_RangeTag)].

(** tagid56_list_header.py 115-124 *)
Definition FM_TableCell : faces := [("padding", FMargin)].

(** tagid56_list_header.py 136-138 *)
Definition FM_TextboxParagraphList : faces := [("padding", FMargin)].

(** tagid58_footnote_shape.py 38-51 *)
Definition FM_FootnoteShape : faces := [("usersymbol", FWchar); ("prefix", FWchar); ("suffix", FWchar); ("splitter_color", FColor)].

(** tagid59_page_border_fill.py 42-45 *)
Definition FM_PageBorderFill : faces := [("margin", FMargin)].

(** tagid60_shape_component.py 56-62 *)
Definition FC_Matrix : face := FStruct "Matrix" [].

(** tagid60_shape_component.py 67-69 *)
Definition FC_ScaleRotationMatrix : face := FStruct "ScaleRotationMatrix" [("scaler", FC_Matrix); ("rotator", FC_Matrix)].

(** tagid60_shape_component.py 125-192 *)
Definition FM_ShapeComponent : faces := [("rotation_center", FC_Coord); ("translation", FC_Matrix); ("scalerotations", FArray FC_ScaleRotationMatrix); ("controls", FArray FPlain); ("border", FC_BorderLine); ("fill_colorpattern", FC_FillColorPattern); ("fill_gradation", FC_FillGradation); ("fill_image", FC_FillImage); ("line", FC_BorderLine)].

(** tagid61_table.py 38-44 *)
Definition FC_ZoneInfo : face := FStruct "ZoneInfo" [].

(** tagid61_table.py 58-73 *)
Definition FM_TableBody : faces := [("padding", FMargin); ("rowcols", FArray FPlain); ("validZones", FArray FC_ZoneInfo)].

(** tagid62_shape_component_line.py 33-37 *)
Definition FM_ShapeLine : faces := [("p0", FC_Coord); ("p1", FC_Coord)].

(** tagid63_shape_component_rectangle.py 33-39 *)
Definition FM_ShapeRectangle : faces := [("p0", FC_Coord); ("p1", FC_Coord); ("p2", FC_Coord); ("p3", FC_Coord)].

(** tagid64_shape_component_ellipse.py 40-49 *)
Definition FM_ShapeEllipse : faces := [("center", FC_Coord); ("axis1", FC_Coord); ("axis2", FC_Coord); ("start1", FC_Coord); ("end1", FC_Coord); ("start2", FC_Coord); ("end2", FC_Coord)].

(** tagid65_shape_component_arc.py 32-37 *)
Definition FM_ShapeArc : faces := [("center", FC_Coord); ("axis1", FC_Coord); ("axis2", FC_Coord)].

(** tagid66_shape_component_polygon.py 34-36 *)
Definition FM_ShapePolygon : faces := [("points", FArray FC_Coord)].

(** tagid67_shape_component_curve.py 35-37 *)
Definition FM_ShapeCurve : faces := [("points", FArray FC_Coord)].

(** tagid68_shape_component_ole.py 47-52 *)
Definition FM_ShapeOLE : faces := [("storage_id", FStorage); ("border", FC_BorderLine)].

(** tagid69_shape_component_picture.py 39-43 *)
Definition FC_PictureInfo : face := FStruct "PictureInfo" [].

(** tagid69_shape_component_picture.py 53-54 *)
Definition FC_PictureEffect : face := FStruct "PictureEffect" [].

(** tagid69_shape_component_picture.py 62-66 *)
Definition FC_ImageRect : face := FStruct "ImageRect" [("p0", FC_Coord); ("p1", FC_Coord); ("p2", FC_Coord); ("p3", FC_Coord)].

(** tagid69_shape_component_picture.py 74-78 *)
Definition FC_ImageClip : face := FStruct "ImageClip" [].

(** tagid69_shape_component_picture.py 86-100 *)
Definition FM_ShapePicture : faces := [("border", FC_BorderLine); ("rect", FC_ImageRect); ("clip", FC_ImageClip); ("padding", FMargin); ("picture", FC_PictureInfo); ("picture_effect", FC_PictureEffect)].

(** controls/columns_def.py 39-40 *)
Definition FC_Column0 : face := FStruct "Column0" [].

(** controls/columns_def.py 45-47 *)
Definition FC_Column : face := FStruct "Column" [].

(** controls/columns_def.py 62-83 *)
Definition FM_ColumnsDef : faces := [("column0", FC_Column0); ("columns", FArray FC_Column); ("splitter", FC_Border)].

(** controls/common_controls.py 68-80 *)
Definition FM_CommonControl : faces := [("margin", FMargin)].

(** controls/numbering.py 52-55 *)
Definition FM_AutoNumbering : faces := [("usersymbol", FWchar); ("prefix", FWchar); ("suffix", FWchar)].

(** controls/page_number_position.py 43-48 *)
Definition FM_PageNumberPosition : faces := [("usersymbol", FWchar); ("prefix", FWchar); ("suffix", FWchar); ("dash", FWchar)].

Definition class_faces : list (string * faces) :=
 [("BinData", FM_BinData);
  ("FaceName", FM_FaceName);
  ("BorderFill", FM_BorderFill);
  ("CharShape", FM_CharShape);
  ("TabDef", FM_TabDef);
  ("Numbering", FM_Numbering);
  ("Bullet", FM_Bullet);
  ("ParaCharShape", FM_ParaCharShape);
  ("ParaLineSeg", FM_ParaLineSeg);
  ("ParaRangeTag", FM_ParaRangeTag);
  ("TableCell", FM_TableCell);
  ("TextboxParagraphList", FM_TextboxParagraphList);
  ("FootnoteShape", FM_FootnoteShape);
  ("PageBorderFill", FM_PageBorderFill);
  ("ShapeComponent", FM_ShapeComponent);
  ("TableBody", FM_TableBody);
  ("ShapeLine", FM_ShapeLine);
  ("ShapeRectangle", FM_ShapeRectangle);
  ("ShapeEllipse", FM_ShapeEllipse);
  ("ShapeArc", FM_ShapeArc);
  ("ShapePolygon", FM_ShapePolygon);
  ("ShapeCurve", FM_ShapeCurve);
  ("ShapeOLE", FM_ShapeOLE);
  ("ShapePicture", FM_ShapePicture);
  ("ColumnsDef", FM_ColumnsDef);
  ("CommonControl", FM_CommonControl);
  ("AutoNumbering", FM_AutoNumbering);
  ("PageNumberPosition", FM_PageNumberPosition)].
(** ** Typed attributes *)

(** The type of an attribute: a declared one; [Struct], the default of a
    selection (dataio.py 471); type(value). *)
Inductive atype : Type :=
| Declared_as (t : ty node) (f : face)
| Empty_struct
| Type_of_value.

(** A value, or a fresh object of a class without [__str__]. *)
Inductive held : Type :=
| Held (v : value)
| Object.

(** [member['type']()], dataio.py 531: ints and floats are 0, texts and HexBytes
    empty (PrimitiveType.__new__ 71-79, HexBytes 131-135), arrays empty tuples and
    lists, structs objects. *)
Definition default_of (a : atype) : held :=
  match a with
  | Declared_as (TPrim _ (PFmt FmtDouble)) _ => Held (VDouble 0)
  | Declared_as (TPrim _ (PFmt _)) _ => Held (VInt 0)
  | Declared_as (TPrim _ (PChid | PBstr | PHex _ | PBytes _)) _ => Held (VText [])
  | Declared_as (TPrim _ PChunks) _ => Held (VList [])
  | Declared_as (TPrim _ PVersion) _ => Object
  | Declared_as (TFlags _ _ g) _ => Held (VFlags g 0)
  | Declared_as (TFixed _ _ _) _ => Held (VTuple [])
  | Declared_as (TVar _ _ _) _ => Held (VList [])
  | Declared_as _ _ => Object
  | Empty_struct => Object
  | Type_of_value => Object
  end.

(** The context of the conversion has the version of the file but no 'parent'
    (xmlmodel.py 562-577): [parent_must_be_gso] does not hold and
    [ref_parent_member] is a KeyError.  A node with some other type and no content
    behaves so. *)
Definition no_parent : node := mkNode (Some "") None false.

Fixpoint find_selection (k : Z) (l : alts node) (fs : list face) : atype :=
  match l with
  | ANil _ => Empty_struct
  | ACons _ k' t rest =>
      let '(f, fs') := match fs with f :: r => (f, r) | [] => (FPlain, []) end in
      if k =? k' then Declared_as t f else find_selection k rest fs'
  end.

(** dataio.py 557-560: X_ARRAY (457-459) and SelectiveType (469-471) called with
    the values so far. *)
Definition resolve (t : ty node) (f : face) (values : list (string * value)) : res atype :=
  match t with
  | TX _ count t' => let? n := count no_parent (VDict values) in Ok (Declared_as (TFixed node t' n) f)
  | TSel _ selector l => let? k := selector no_parent (VDict values) in
                         Ok (find_selection k l (match f with FSel fs => fs | _ => [] end))
  | _ => Ok (Declared_as t f)
  end.

(** dict.pop *)
Fixpoint dict_pop {V} (k : string) (d : list (string * V)) : option V * list (string * V) :=
  match d with
  | [] => (None, [])
  | (k', v) :: r => if String.eqb k k' then (Some v, r)
                    else let '(x, r') := dict_pop k r in (x, (k', v) :: r')
  end.

Definition typed : Type := (string * (atype * held))%type.

(** dataio.py 552-574 [parse_members] with [popvalue] (526-531): the typed
    members and the attributes that are left.  An object is not kept in [values]:
    no reference looks at a member that can be one. *)
Fixpoint parse_members (version : list Z) (ms : members node) (fs : faces)
    (attributes values : list (string * value)) : res (list typed * list (string * value)) :=
  match ms with
  | MNil _ => Ok ([], attributes)
  | MCons _ name required cond t rest =>
      let? a := resolve t (face_of name fs) values in
      if match required with None => true | Some r => negb (version_lt version r) end then
        let? c := match cond with None => Ok true | Some f => f no_parent (VDict values) end in
        if c then
          let '(found, attributes') := dict_pop name attributes in
          let v := match found with Some x => Held x | None => default_of a end in
          let values' := match v with Held x => dict_set name x values | Object => values end in
          let? (l, others) := parse_members version rest fs attributes' values' in
          Ok ((name, (a, v)) :: l, others)
        else parse_members version rest fs attributes values
      else parse_members version rest fs attributes values
  end.

(** dataio.py 576-583 [parse_members_with_inherited]: the layouts of the class and
    its bases, the base first. *)
Fixpoint parse_all_members (version : list Z) (layouts : list (members node * faces))
    (attributes : list (string * value)) : res (list typed * list (string * value)) :=
  match layouts with
  | [] => Ok ([], attributes)
  | (ms, fs) :: r =>
      let? (l, others) := parse_members version ms fs attributes [] in
      let? (l', others') := parse_all_members version r others in
      Ok (l ++ l', others')
  end.

(** dataio.py 536-538: the attributes that are no members. *)
Definition remnants (attributes : list (string * value)) : list typed :=
  map (fun kv => (fst kv, (Type_of_value, Held (snd kv)))) attributes.

(** dataio.py 523-538 *)
Definition typed_struct_attributes (version : list Z) (layouts : list (members node * faces))
    (attributes : list (string * value)) : res (list typed) :=
  let? (l, others) := parse_all_members version layouts attributes in Ok (l ++ remnants others).

(** ** Attribute values *)

(** xmlformat.py 99-124 *)
Definition PUA_SYMBOLS : list (Z * Z) :=
  [(0xF046, 0x261E); (0xF06C, 0x25CF); (0xF09F, 0x2022); (0xF0A1, 0x25CB); (0xF06E, 0x25A0); (0xF0A7, 0x25AA);
   (0xF06F, 0x2610); (0xF075, 0x25C6); (0xF077, 0x2B29); (0xF076, 0x2756); (0xF0A4, 0x25C9); (0xF0AB, 0x2605);
   (0xF0FC, 0x2713); (0xF0FE, 0x2611)].

(** str.lower for the names of enumeration values, which are ASCII *)
Definition lower (s : list Z) : list Z := map (fun c => if (65 <=? c) && (c <=? 90) then c + 32 else c) s.

(** xmlformat.py 63-64 for an instance of the enumeration [type] *)
Definition enum_text (type n : Z) : list Z :=
  match zdict_get type enum_table with
  | Some items => match make_enum [] items with
                  | Ok st => match enum_name st (enum_call st n) with
                             | Some name => lower (zs name)
                             | None => fmt_d n
                             end
                  | Raise _ => fmt_d n
                  end
  | None => fmt_d n
  end.

(** basetype.fixed_size *)
Definition flags_size (base : binfmt) : Z := calcsize base.

Section Convert.
  (** Python's repr of what is neither an int nor a list or tuple of such: floats,
      texts in lists. *)
  Variable py_repr : value -> list Z.
  (** str of an object without [__str__]: class and address *)
  Variable object_text : list Z.

  Definition item_text (v : value) : list Z :=
    match v with VInt n | VFlags _ n => fmt_d n | _ => py_repr v end.

  (** xmlformat.py 57-68 [xmlattrval].  Bytes only occur as the digits of HexBytes;
      Python 3: str gives b'...'. *)
  Definition xmlattrval (v : value) : list Z :=
    match v with
    | VText t => t
    | VInt n | VFlags _ n => fmt_d n
    | VBytes b => zs "b'" ++ b ++ zs "'"
    | VList l => zs "[" ++ join (zs ", ") (map item_text l) ++ zs "]"
    | VTuple [x] => zs "(" ++ item_text x ++ zs ",)"
    | VTuple l => zs "(" ++ join (zs ", ") (map item_text l) ++ zs ")"
    | VDouble _ | VChunks _ | VDict _ => py_repr v
    end.
  Definition xmlattrval_held (h : held) : list Z :=
    match h with Held v => xmlattrval v | Object => object_text end.

  (** xmlformat.py 73-78: a flags value and its bit groups *)
  Definition flags_attributes (name : string) (base : binfmt) (groups : list (string * flag_field)) (n : Z)
    : list (string * list Z) :=
    (name, fmt_X (flags_size base * 2) n) ::
    map (fun g => match g with
                  | (k, (lsb, msb, type)) =>
                      let x := get_int_value lsb msb n in
                      (k, match type with Some e => enum_text e x | None => fmt_d x end)
                  end) groups.

  Definition to_int (h : held) : res Z :=
    match h with Held (VInt n) | Held (VFlags _ n) => Ok n | _ => Raise TypeError end.

  (** xmlformat.py 71-96 [expanded_xmlattribute].  A flags value that is no member
      brings its own type (its basetype is not kept in the value: 32 bits; no such
      attribute is ever added). *)
  Definition expanded_xmlattribute (x : typed) : res (list (string * list Z)) :=
    let '(name, (a, v)) := x in
    match a, v with
    | Declared_as (TFlags _ base groups) _, _ => let? n := to_int v in Ok (flags_attributes name base groups n)
    | Type_of_value, Held (VFlags groups n) => Ok (flags_attributes name UINT32 groups n)
    | Declared_as _ FMargin, Held (VDict d) =>
        Ok (map (fun pos => (name ++ "-" ++ pos, match dict_get pos d with Some x => xmlattrval x | None => zs "None" end))
                ["left"; "right"; "top"; "bottom"])%string
    | Declared_as _ FMargin, _ => Raise AttributeError
    | Declared_as _ FColor, _ => let? n := to_int v in Ok [(name, color_str n)]
    | Declared_as (TPrim _ PVersion) _, Held (VTuple l) => Ok [(name, join (zs ".") (map item_text l))]
    | Declared_as _ FWchar, _ =>
        let? n := to_int v in
        if n =? 0 then Ok [(name, [])]
        else match zdict_get n PUA_SYMBOLS with
             | Some c => Ok [(name, [c])]
             | None => if (0 <=? n) && (n <? 0x110000) then Ok [(name, [n])] else Raise ValueError
             end
    | Declared_as _ FStorage, _ => let? n := to_int v in Ok [(name, zs "BIN" ++ fmt_X 4 n)]
    | _, _ => Ok [(name, xmlattrval_held v)]
    end.

  (** xmlformat.py 127-129 *)
  Definition dashed (s : list Z) : list Z := map (fun c => if c =? 95 then 45 else c) s.

  (** xmlformat.py 132-137 [xmlattr_uniqnames] *)
  Fixpoint uniqnames (names : list (list Z)) (attrs : list (list Z * list Z)) : res (list (list Z * list Z)) :=
    match attrs with
    | [] => Ok []
    | (k, v) :: r =>
        if existsb (fun n => if list_eq_dec Z.eq_dec k n then true else false) names then Raise AssertionError
        else let? l := uniqnames (k :: names) r in Ok ((k, v) :: l)
    end.

  Fixpoint expanded_all (l : list typed) : res (list (string * list Z)) :=
    match l with
    | [] => Ok []
    | x :: r => let? a := expanded_xmlattribute x in let? b := expanded_all r in Ok (a ++ b)
    end.

  (** xmlformat.py 140-143 *)
  Definition xmlattributes_for_plainvalues (plain : list typed) : res (list (list Z * list Z)) :=
    let? l := expanded_all plain in
    uniqnames [] (map (fun kv => (dashed (zs (fst kv)), snd kv)) l).

  (** ** Elements *)

  Definition is_struct (t : ty node) : bool := match t with TStruct _ _ => true | _ => false end.
  Definition item_of (a : atype) : option (ty node * face) :=
    match a with
    | Declared_as (TFixed _ t _) f | Declared_as (TVar _ _ t) f =>
        Some (t, match f with FArray f' => f' | _ => FPlain end)
    | _ => None
    end.

  (** xmlformat.py 146-154 [is_complex_type] *)
  Definition is_complex_type (a : atype) (v : held) : bool :=
    match v with
    | Held (VDict _) => true
    | _ => match item_of a with
           | Some (t, f) => is_struct t || match f with FColor => true | _ => false end
           | None => false
           end
    end.
  Definition is_margin (a : atype) : bool := match a with Declared_as _ FMargin => true | _ => false end.

  (** xmlformat.py 157-174 [separate_plainvalues] *)
  Fixpoint separate_plainvalues (l : list typed) (d p : list typed) : list typed * list typed :=
    match l with
    | [] => (d, p)
    | (name, (a, v)) :: r =>
        if is_margin a then separate_plainvalues r d (dict_set name (a, v) p)
        else if is_complex_type a v then separate_plainvalues r (d ++ [(name, (a, v))]) p
        else separate_plainvalues r d (dict_set name (a, v) p)
    end.

  (** What an element is made for: a struct type with the layouts of its bases and
      its own, or any other class. *)
  Inductive emodel : Type :=
  | Struct_type (name : string) (layouts : list (members node * faces))
  | Other_class (name : string).
  Definition model_name (m : emodel) : string := match m with Struct_type n _ | Other_class n => n end.

  (** The attributes of one colour, xmlformat.py 219-226 *)
  Definition color_attributes (n : Z) : list (list Z * list Z) :=
    [(zs "r", fmt_d (Z.land (Z.shiftr n 0) 0xff)); (zs "g", fmt_d (Z.land (Z.shiftr n 8) 0xff));
     (zs "b", fmt_d (Z.land (Z.shiftr n 16) 0xff)); (zs "alpha", fmt_d (Z.land (Z.shiftr n 24) 0xff));
     (zs "hex", color_str n)].

  (** Generators one after another *)
  Definition gthen {A} (g : gen A) (k : gen A) : gen A :=
    match g with (out, Finished) => gapp out k | _ => g end.
  Fixpoint gmap {A B} (f : A -> gen B) (l : list A) : gen B :=
    match l with [] => ([], Finished) | x :: r => gthen (f x) (gmap f r) end.

  (** xmlformat.py 177-232 [startelement] and 235-239 [element]; [fuel] bounds the
      nesting. *)
  Fixpoint startelement (fuel : nat) (version : list Z) (m : emodel) (attributes : list (string * value)) : gen xevent :=
    match fuel with
    | O => ([], OutOfFuel)
    | S k =>
        let element (m : emodel) (attributes : list (string * value)) : gen xevent :=
          gthen (startelement k version m attributes) ([XEnd (zs (model_name m))], Finished) in
        let typed_attributes := match m with
                                | Struct_type _ layouts => typed_struct_attributes version layouts attributes
                                | Other_class _ => Ok (remnants attributes)
                                end in
        match typed_attributes with
        | Raise e => ([], Failed e)
        | Ok l =>
            let '(complex, plain) := separate_plainvalues l [] [] in
            let texts := if String.eqb (model_name m) "Text" then
                           match dict_pop "text" plain with
                           | (None, _) => Raise KeyError
                           | (Some (_, v), plain') => Ok (Some v, plain')
                           end
                         else match dict_pop "<text>" plain with
                              | (None, _) => Ok (None, plain)
                              | (Some (_, v), plain') => Ok (Some v, plain')
                              end in
            match (let? (text, plain) := texts in let? attrs := xmlattributes_for_plainvalues plain in Ok (text, attrs)) with
            | Raise e => ([], Failed e)
            | Ok (text, attrs) =>
                gapp (XStart (zs (model_name m)) attrs ::
                      match text with Some (Held (VText (c :: t))) => [XText (c :: t)] | _ => [] end)
                  (gmap (fun x : typed =>
                     let '(name, (a, v)) := x in
                     match v with
                     | Held (VDict d) =>
                         let d' := dict_set "attribute-name" (VText (zs name)) d in
                         match a with
                         | Declared_as (TStruct _ ms) (FStruct cls fs) => element (Struct_type cls [(ms, fs)]) d'
                         | Type_of_value => element (Other_class "dict") d'
                         | _ => ([], Failed AssertionError)      (* no such value is read *)
                         end
                     | Held (VTuple items) | Held (VList items) =>
                         match item_of a with
                         | Some (TStruct _ ms, FStruct cls fs) =>
                             gapp [XStart (zs "Array") [(zs "name", zs name)]]
                               (gthen (gmap (fun i => match i with
                                                      | VDict d => element (Struct_type cls [(ms, fs)]) d
                                                      | _ => ([], Failed TypeError)
                                                      end) items)
                                      ([XEnd (zs "Array")], Finished))
                         | Some (_, FColor) =>
                             gmap (fun i => match i with
                                            | VInt n => ([XStart (zs name) (color_attributes n); XEnd (zs name)], Finished)
                                            | _ => ([], Failed TypeError)
                                            end) items
                         | _ => ([], Failed AssertionError)
                         end
                     | _ => ([], Failed AssertionError)          (* xmlformat.py 211 *)
                     end) complex)
            end
        end
    end.

  (** xmlformat.py 235-239 *)
  Definition element (fuel : nat) (version : list Z) (m : emodel) (attributes : list (string * value)) : gen xevent :=
    gthen (startelement fuel version m attributes) ([XEnd (zs (model_name m))], Finished).
End Convert.

(** The layouts of a record type, the base first (dataio.py 577-580). *)
Definition record_model (c : string) : emodel :=
  Struct_type c (map (fun c => (members_of (match class_fields c with Some l => l | None => [] end),
                                match dict_get c class_faces with Some fs => fs | None => [] end))
                     (rev (filter (fun c => match class_fields c with Some _ => true | None => false end) (mro class_mro_fuel c)))).

(** Structs that are written and are no records: tagid53_para_line_seg.py 35-57 and
    xmlmodel.py 787-791. *)
Definition line_model : emodel :=
  Struct_type "LineSeg" [(match T_LineSeg with TStruct _ ms => ms | _ => MNil node end, [])].
Definition hwpdoc_model : emodel :=
  Struct_type "HwpDoc" [(MCons node "version" None None (TPrim node PVersion) (MNil node), [])].

(** ** Documents *)

(** The (model, attributes, context) of a model event.  Of the context only the
    version is looked at, for members that appear with a later version; the models
    whose context is empty have no such members. *)
Record mitem : Type := mkMitem { mi_version : list Z; mi_model : emodel; mi_attributes : list (string * value) }.

(** xmlmodel.py 562-577 [modelevents_to_xmlevents]; the except clause logs and
    raises the exception again. *)
Fixpoint modelevents_to_xmlevents (py_repr : value -> list Z) (object_text : list Z) (fuel : nat)
    (evs : list (event mitem)) (o : outcome) : gen xevent :=
  match evs with
  | [] => ([], o)
  | EStart it :: r =>
      gthen (startelement py_repr object_text fuel (mi_version it) (mi_model it) (mi_attributes it))
            (modelevents_to_xmlevents py_repr object_text fuel r o)
  | EEnd it :: r => gcons (XEnd (zs (model_name (mi_model it)))) (modelevents_to_xmlevents py_repr object_text fuel r o)
  end.

(** xmlmodel.py 555-559 [wrap_modelevents] *)
Definition wrap_modelevents (wrapper : mitem) (g : gen (event mitem)) : gen (event mitem) :=
  gcons (EStart wrapper) (gthen g ([EEnd wrapper], Finished)).

(** treeop.py 32-55 [prefix_event] on an iterator that can fail; Model_Tree has
    the same loop on a list. *)
Fixpoint prefix_event_iter {A} (base : option Z) (stack : list A) (items : list (Z * A)) (o : outcome) : gen (event A) :=
  match items with
  | [] => match o with Finished => (close_all stack, Finished) | _ => ([], o) end
  | (level, item) :: rest =>
      let b := match base with None => level | Some b => b end in
      let level' := match base with None => 0 | Some b => level - b end in
      match pop_to level' stack with
      | (out, Raise e) => (map EEnd out, Failed e)
      | (out, Ok stack') =>
          match check_level level' stack' with
          | Some e => (map EEnd out, Failed e)
          | None => gapp (map EEnd out ++ [EStart item]) (prefix_event_iter (Some b) (item :: stack') rest o)
          end
      end
  end.

(** xmlmodel.py 548-552 [prefix_binmodels_with_event].  The root item of
    [prefix_event] is None; it would be shown if a record were above the first one,
    but then there are no models (binmodel/__init__.py 430-467). *)
Definition prefix_binmodels_with_event (version : list Z) (g : gen (record * model)) : gen (event mitem) :=
  prefix_event_iter None [mkMitem [] (Other_class "") []]
    (map (fun rm => (r_level (fst rm), mkMitem version (record_model (m_type (snd rm))) (m_content (snd rm)))) (fst g)) (snd g).

(** xmlmodel.py 518-545 [embed_bindata]; one event is Model_Embed.embed_event. *)
Fixpoint embed_items (read : list Z -> res (list Z)) (evs : list (event mitem)) (o : outcome) : gen (event mitem) :=
  match evs with
  | [] => ([], o)
  | EStart it :: r =>
      match embed_event read (mkBev true (model_name (mi_model it)) (mi_attributes it)) with
      | Raise x => ([], Failed x)
      | Ok e => gcons (EStart (mkMitem (mi_version it) (mi_model it) (b_attrs e))) (embed_items read r o)
      end
  | EEnd it :: r => gcons (EEnd it) (embed_items read r o)
  end.

(** xmlmodel.py 731-739 [DocInfo.events]; [embedbin] reads a stream of the BinData
    storage. *)
Definition docinfo_events (embedbin : option (list Z -> res (list Z))) (version : list Z) (g : gen (record * model)) : gen (event mitem) :=
  let events := prefix_binmodels_with_event version g in
  let events := match embedbin with Some read => embed_items read (fst events) (snd events) | None => events end in
  wrap_modelevents (mkMitem [] (Other_class "DocInfo") []) events.

(** xmlmodel.py 580-594: what [XmlEvents.__iter__] gives; [bytechunks] is
    Model_XmlText.xml_bytechunks. *)
Definition xmlevents (py_repr : value -> list Z) (object_text : list Z) (fuel : nat) (g : gen (event mitem)) : gen xevent :=
  modelevents_to_xmlevents py_repr object_text fuel (fst g) (snd g).
