(** The enumerations, bit fields and record layouts declared in
    src/hwp5/binmodel: what the [attributes] of every class yields
    (dataio.py 541-551 turns it into its members).  Citations are relative to
    src/hwp5/binmodel. *)
From Coq Require Import ZArith String List Bool.
From Verif Require Import Base Model_Text Model_Dataio Model_ParaText Model_Bintype.
Import ListNotations.
Open Scope string_scope.
Open Scope list_scope.
Open Scope Z_scope.

(** The parent of a record while it is parsed: parent model['type'],
    model['content'] (neither is set for the root, binmodel/__init__.py 295)
    and parent context['seen_table_body'].  This is all that layouts look up in
    the context besides the version. *)
Record node : Type := mkNode { n_type : option string; n_content : option value; n_seen : bool }.
Definition root_node : node := mkNode None None false.

(** Notation for declarations: a member is a name, the version it appeared in,
    its condition, its type. *)
Definition field : Type := (string * option (list Z) * option (ref node bool) * ty node)%type.
Definition fld (name : string) (t : ty node) : field := (name, None, None, t).
Definition since (v : list Z) (f : field) : field := let '(name, _, c, t) := f in (name, Some v, c, t).
Definition when (c : ref node bool) (f : field) : field := let '(name, v, _, t) := f in (name, v, Some c, t).
Fixpoint members_of (l : list field) : members node :=
  match l with
  | [] => MNil node
  | (name, v, c, t) :: r => MCons node name v c t (members_of r)
  end.
Definition struct_type (l : list field) : ty node := TStruct node (members_of l).
Definition flags_type (base : binfmt) (groups : list (string * flag_field)) : ty node := TFlags node base groups.
Fixpoint selective_alts (l : list (Z * ty node)) : alts node :=
  match l with [] => ANil node | (k, t) :: r => ACons node k t (selective_alts r) end.
Definition selective (selector : ref node Z) (l : list (Z * ty node)) : ty node := TSel node selector (selective_alts l).
Definition ARRAY (t : ty node) (n : Z) : ty node := TFixed node t n.
Definition N_ARRAY (counttype : binfmt) (t : ty node) : ty node := TVar node counttype t.
Definition X_ARRAY (t : ty node) (count : ref node Z) : ty node := TX node count t.

Definition UINT32_t : ty node := TPrim node (PFmt UINT32).
Definition INT32_t : ty node := TPrim node (PFmt INT32).
Definition UINT16_t : ty node := TPrim node (PFmt UINT16).
Definition INT16_t : ty node := TPrim node (PFmt INT16).
Definition UINT8_t : ty node := TPrim node (PFmt UINT8).
Definition INT8_t : ty node := TPrim node (PFmt INT8).
Definition WORD_t : ty node := TPrim node (PFmt WORD).
Definition BYTE_t : ty node := TPrim node (PFmt BYTE).
Definition DOUBLE_t : ty node := TPrim node (PFmt DOUBLE).
Definition WCHAR_t : ty node := TPrim node (PFmt WCHAR).
Definition HWPUNIT_t : ty node := TPrim node (PFmt HWPUNIT).
Definition SHWPUNIT_t : ty node := TPrim node (PFmt SHWPUNIT).
Definition HWPUNIT16_t : ty node := TPrim node (PFmt HWPUNIT16).
(** _shared.py 64-65; UINT16 *)
Definition BinStorageId_t : ty node := TPrim node (PFmt UINT16).
(** _shared.py 68-70; INT32 *)
Definition COLORREF_t : ty node := TPrim node (PFmt INT32).
Definition BSTR_t : ty node := TPrim node PBstr.
Definition CHID_t : ty node := TPrim node PChid.
Definition ParaTextChunks_t : ty node := TPrim node PChunks.
Definition HexBytes_t (n : Z) : ty node := TPrim node (PHex n).

(** ** References to the parent record and conditions *)

(** _shared.py 260-265 [ref_parent_member], used as a count *)
Definition ref_parent_member (name : string) : ref node Z :=
  fun parent _ => match n_content parent with
                  | None => Raise KeyError
                  | Some (VDict d) => match dict_get name d with Some v => int_of_value v | None => Raise KeyError end
                  | Some _ => Raise TypeError
                  end.

(** A bit group as a condition: non-zero. *)
Definition flag_set (name field : string) : ref node bool :=
  fun parent vs => let? n := ref_member_flag name field parent vs in Ok (negb (Z.eqb n 0)).

(** tagid19_face_name.py 116-129 *)
Definition has_alternate : ref node bool := flag_set "flags" "alternate".
Definition has_metric : ref node bool := flag_set "flags" "metric".
Definition has_default : ref node bool := flag_set "flags" "default".

(** tagid20_border_fill.py 63-75 *)
Definition fill_colorpattern : ref node bool := flag_set "fillflags" "colorpattern".
Definition fill_image : ref node bool := flag_set "fillflags" "image".
Definition fill_gradation : ref node bool := flag_set "fillflags" "gradation".

(** tagid60_shape_component.py 65-71; without a parent type, a KeyError. *)
Definition parent_must_be_gso : ref node bool :=
  fun parent _ => match n_type parent with
                  | None => Raise KeyError
                  | Some t => Ok (String.eqb t "GShapeObjectControl")
                  end.

(** tagid60_shape_component.py 74-107; CHID constants controlchar.py 43-54 *)
Definition chid_is (c : string) : ref node bool :=
  fun parent vs => let? v := ref_member "chid" parent vs in
                   match v with VText t => Ok (if list_eq_dec Z.eq_dec t (zs c) then true else false) | _ => Ok false end.
Definition both (a b : ref node bool) : ref node bool :=
  fun parent vs => let? x := a parent vs in if x then b parent vs else Ok false.
Definition chid_is_container : ref node bool := chid_is "$con".
Definition chid_is_rect : ref node bool := chid_is "$rec".
Definition chid_is_rect_and_fill_colorpattern : ref node bool := both (chid_is "$rec") (flag_set "fill_flags" "fill_colorpattern").
Definition chid_is_rect_and_fill_image : ref node bool := both (chid_is "$rec") (flag_set "fill_flags" "fill_image").
Definition chid_is_rect_and_fill_gradation : ref node bool := both (chid_is "$rec") (flag_set "fill_flags" "fill_gradation").
Definition chid_is_line : ref node bool := chid_is "$lin".

(** controls/columns_def.py 63-71 *)
Definition not_same_widths : ref node bool :=
  fun parent vs => let? n := ref_member_flag "flags" "same_widths" parent vs in Ok (Z.eqb n 0).
Definition n_entries (count : ref node Z) : ref node Z :=
  fun parent vs => let? n := count parent vs in Ok (n - 1).

(** tagid21_char_shape.py 36-44 [LanguageStruct] *)
Definition LanguageStruct (basetype : ty node) : ty node :=
  struct_type (map (fun lang => fld lang basetype) ["ko"; "en"; "cn"; "jp"; "other"; "symbol"; "user"]).

(** ** Enumerations: a number for each, and their names and values *)

Definition E_Border_StrokeEnum : Z := 1.
Definition E_Border_WidthEnum : Z := 2.
Definition E_BorderLine_LineEnd : Z := 3.
Definition E_BorderLine_ArrowShape : Z := 4.
Definition E_BorderLine_ArrowSize : Z := 5.
Definition E_FillColorPattern_PatternTypeEnum : Z := 6.
Definition E_FillImage_FillImageEnum : Z := 7.
Definition E_FillImage_EffectEnum : Z := 8.
Definition E_GradationTypeEnum : Z := 9.
Definition E_BinData_StorageType : Z := 10.
Definition E_BinData_CompressionType : Z := 11.
Definition E_BinData_AccessState : Z := 12.
Definition E_Panose1_FamilyType : Z := 13.
Definition E_Panose1_SerifStyle : Z := 14.
Definition E_Panose1_Weight : Z := 15.
Definition E_Panose1_Proportion : Z := 16.
Definition E_Panose1_Contrast : Z := 17.
Definition E_Panose1_StrokeVariation : Z := 18.
Definition E_Panose1_ArmStyle : Z := 19.
Definition E_Panose1_Letterform : Z := 20.
Definition E_Panose1_Midline : Z := 21.
Definition E_Panose1_XHeight : Z := 22.
Definition E_FaceName_FontFileType : Z := 23.
Definition E_CharShape_Underline : Z := 24.
Definition E_CharShape_UnderlineStyle : Z := 25.
Definition E_Tab_Kind : Z := 26.
Definition E_NumberingLevel_Align : Z := 27.
Definition E_NumberingLevel_DistanceType : Z := 28.
Definition E_BulletAlignEnum : Z := 29.
Definition E_ParaShape_LineSpacingType : Z := 30.
Definition E_ParaShape_Align : Z := 31.
Definition E_ParaShape_VAlign : Z := 32.
Definition E_ParaShape_LineBreakAlphabet : Z := 33.
Definition E_ParaShape_LineBreakHangul : Z := 34.
Definition E_ParaShape_HeadShape : Z := 35.
Definition E_Style_Kind : Z := 36.
Definition E_CompatibleDocument_Target : Z := 37.
Definition E_ListHeader_VAlign : Z := 38.
Definition E_TableCaption_Position : Z := 39.
Definition E_PageDef_Orientation : Z := 40.
Definition E_PageDef_BookBinding : Z := 41.
Definition E_PageBorderFill_RelativeTo : Z := 42.
Definition E_PageBorderFill_FillArea : Z := 43.
Definition E_TableBody_Split : Z := 44.
Definition E_EqEdit_ScriptScope : Z := 45.
Definition E_ColumnsDef_Kind : Z := 46.
Definition E_ColumnsDef_Direction : Z := 47.
Definition E_CommonControl_Flow : Z := 48.
Definition E_CommonControl_TextSide : Z := 49.
Definition E_CommonControl_VRelTo : Z := 50.
Definition E_CommonControl_HRelTo : Z := 51.
Definition E_CommonControl_VAlign : Z := 52.
Definition E_CommonControl_HAlign : Z := 53.
Definition E_CommonControl_WidthRelTo : Z := 54.
Definition E_CommonControl_HeightRelTo : Z := 55.
Definition E_CommonControl_NumberCategory : Z := 56.
Definition E_Dutmal_Position : Z := 57.
Definition E_Dutmal_Align : Z := 58.
Definition E_HeaderFooter_Places : Z := 59.
Definition E_NumberingControl_Kind : Z := 60.
Definition E_PageNumberPosition_Position : Z := 61.
Definition E_PageOddEven_OddEven : Z := 62.

(** Names and values in declaration order. *)
Definition enum_table : list (Z * list (string * Z)) :=
 [(E_Border_StrokeEnum, [("none", 0); ("solid", 1); ("dashed", 2); ("dotted", 3); ("dash-dot", 4); ("dash-dot-dot", 5); ("long-dash", 6); ("large-dot", 7); ("double", 8); ("double-2", 9); ("double-3", 10); ("triple", 11); ("wave", 12); ("double-wave", 13); ("inset", 14); ("outset", 15); ("groove", 16); ("ridge", 17)]) (* _shared.py 112-117 *);
  (E_Border_WidthEnum, [("0.1mm", 0); ("0.12mm", 1); ("0.15mm", 2); ("0.2mm", 3); ("0.25mm", 4); ("0.3mm", 5); ("0.4mm", 6); ("0.5mm", 7); ("0.6mm", 8); ("0.7mm", 9); ("1.0mm", 10); ("1.5mm", 11); ("2.0mm", 12); ("3.0mm", 13); ("4.0mm", 14); ("5.0mm", 15)]) (* _shared.py 138 *);
  (E_BorderLine_LineEnd, [("round", 0); ("flat", 1)]) (* _shared.py 152 *);
  (E_BorderLine_ArrowShape, [("none", 0); ("arrow", 1); ("arrow2", 2); ("diamond", 3); ("circle", 4); ("rect", 5); ("diamondfilled", 6); ("disc", 7); ("rectfilled", 8)]) (* _shared.py 153-154 *);
  (E_BorderLine_ArrowSize, [("smallest", 0); ("smaller", 1); ("small", 2); ("abitsmall", 3); ("normal", 4); ("abitlarge", 5); ("large", 6); ("larger", 7); ("largest", 8)]) (* _shared.py 155-156 *);
  (E_FillColorPattern_PatternTypeEnum, [("NONE", 255); ("HORIZONTAL", 0); ("VERTICAL", 1); ("BACKSLASH", 2); ("SLASH", 3); ("GRID", 4); ("CROSS", 5)]) (* _shared.py 188-189 *);
  (E_FillImage_FillImageEnum, [("TILE_ALL", 0); ("TILE_HORIZONTAL_TOP", 1); ("TILE_HORIZONTAL_BOTTOM", 2); ("TILE_VERTICAL_LEFT", 3); ("TILE_VERTICAL_RIGHT", 4); ("RESIZE", 5); ("CENTER", 6); ("CENTER_TOP", 7); ("CENTER_BOTTOM", 8); ("LEFT_MIDDLE", 9); ("LEFT_TOP", 10); ("LEFT_BOTTOM", 11); ("RIGHT_MIDDLE", 12); ("RIGHT_TOP", 13); ("RIGHT_BOTTOM", 14); ("NONE", 15)]) (* _shared.py 201-216 *);
  (E_FillImage_EffectEnum, [("REAL_PIC", 0); ("GRAY_SCALE", 1); ("BLACK_WHITE", 2); ("PATTERN8x8", 3)]) (* _shared.py 220-223 *);
  (E_GradationTypeEnum, [("LINEAR", 1); ("CIRCULAR", 2); ("CONICAL", 3); ("RECTANGULAR", 4)]) (* _shared.py 243 *);
  (E_BinData_StorageType, [("LINK", 0); ("EMBEDDING", 1); ("STORAGE", 2)]) (* tagid18_bin_data.py 61 *);
  (E_BinData_CompressionType, [("STORAGE_DEFAULT", 0); ("YES", 1); ("NO", 2)]) (* tagid18_bin_data.py 62 *);
  (E_BinData_AccessState, [("NEVER", 0); ("OK", 1); ("FAILED", 2); ("FAILED_IGNORED", 3)]) (* tagid18_bin_data.py 63 *);
  (E_Panose1_FamilyType, [("any", 0); ("no_fit", 1); ("text_display", 2); ("script", 3); ("decorative", 4); ("pictorial", 5)]) (* tagid19_face_name.py 42-43 *);
  (E_Panose1_SerifStyle, [("any", 0); ("no_fit", 1); ("cove", 2); ("obtuse_cove", 3); ("square_cove", 4); ("obtuse_square_cove", 5); ("square", 6); ("thin", 7); ("bone", 8); ("exaggerated", 9); ("triangle", 10); ("normal_sans", 11); ("obtuse_sans", 12); ("perp_sans", 13); ("flared", 14); ("rounded", 15)]) (* tagid19_face_name.py 45-48 *);
  (E_Panose1_Weight, [("any", 0); ("no_fit", 1); ("very_light", 2); ("light", 3); ("thin", 4); ("book", 5); ("medium", 6); ("demi", 7); ("bold", 8); ("heavy", 9); ("black", 10); ("nord", 11)]) (* tagid19_face_name.py 50-51 *);
  (E_Panose1_Proportion, [("any", 0); ("no_fit", 1); ("old_style", 2); ("modern", 3); ("even_width", 4); ("expanded", 5); ("condensed", 6); ("very_expanded", 7); ("very_condensed", 8); ("monospaced", 9)]) (* tagid19_face_name.py 53-55 *);
  (E_Panose1_Contrast, [("any", 0); ("no_fit", 1); ("none", 2); ("very_low", 3); ("low", 4); ("medium_low", 5); ("medium", 6); ("medium_high", 7); ("high", 8); ("very_high", 9)]) (* tagid19_face_name.py 57-58 *);
  (E_Panose1_StrokeVariation, [("any", 0); ("no_fit", 1); ("gradual_diag", 2); ("gradual_tran", 3); ("gradual_vert", 4); ("gradual_horz", 5); ("rapid_vert", 6); ("rapid_horz", 7); ("instant_vert", 8)]) (* tagid19_face_name.py 60-62 *);
  (E_Panose1_ArmStyle, [("any", 0); ("no_fit", 1); ("straight_horz", 2); ("straight_wedge", 3); ("straight_vert", 4); ("straight_single_serif", 5); ("straight_double_serif", 6); ("bent_horz", 7); ("bent_wedge", 8); ("bent_vert", 9); ("bent_single_serif", 10); ("bent_double_serif", 11)]) (* tagid19_face_name.py 64-67 *);
  (E_Panose1_Letterform, [("any", 0); ("no_fit", 1); ("normal_contact", 2); ("normal_weighted", 3); ("normal_boxed", 4); ("normal_flattened", 5); ("normal_rounded", 6); ("normal_off_center", 7); ("normal_square", 8); ("oblique_contact", 9); ("oblique_weighted", 10); ("oblique_boxed", 11); ("oblique_flattened", 12); ("oblique_rounded", 13); ("oblique_off_center", 14); ("oblique_square", 15)]) (* tagid19_face_name.py 69-74 *);
  (E_Panose1_Midline, [("any", 0); ("no_fit", 1); ("standard_trimmed", 2); ("standard_pointed", 3); ("standard_serifed", 4); ("high_trimmed", 5); ("high_pointed", 6); ("high_serifed", 7); ("constant_trimmed", 8); ("constant_pointed", 9); ("constant_serifed", 10); ("low_trimmed", 11); ("low_pointed", 12); ("low_serifed", 13)]) (* tagid19_face_name.py 76-80 *);
  (E_Panose1_XHeight, [("any", 0); ("no_fit", 1); ("constant_small", 2); ("constant_std", 3); ("constant_large", 4); ("ducking_small", 5); ("ducking_std", 6); ("ducking_large", 7)]) (* tagid19_face_name.py 82-84 *);
  (E_FaceName_FontFileType, [("UNKNOWN", 0); ("TTF", 1); ("HFT", 2)]) (* tagid19_face_name.py 106 *);
  (E_CharShape_Underline, [("NONE", 0); ("UNDERLINE", 1); ("LINE_THROUGH", 2); ("OVERLINE", 3)]) (* tagid21_char_shape.py 60 *);
  (E_CharShape_UnderlineStyle, [("SOLID", 0); ("DASHED", 1); ("DOTTED", 2); ("DASH_DOT", 3); ("DASH_DOT_DOT", 4); ("LONG_DASHED", 5); ("LARGE_DOTTED", 6); ("DOUBLE", 7); ("LOWER_WEIGHTED", 8); ("UPPER_WEIGHTED", 9); ("MIDDLE_WEIGHTED", 10)]) (* tagid21_char_shape.py 61-64 *);
  (E_Tab_Kind, [("LEFT", 0); ("RIGHT", 1); ("CENTER", 2); ("FLOAT", 3)]) (* tagid22_tab_def.py 35 *);
  (E_NumberingLevel_Align, [("LEFT", 0); ("CENTER", 1); ("RIGHT", 2); ("UNKNOWN", 3)]) (* tagid23_numbering.py 39 *);
  (E_NumberingLevel_DistanceType, [("RATIO", 0); ("VALUE", 1)]) (* tagid23_numbering.py 40 *);
  (E_BulletAlignEnum, [("LEFT", 0); ("CENTER", 1); ("RIGHT", 2)]) (* tagid24_bullet.py 34 *);
  (E_ParaShape_LineSpacingType, [("RATIO", 0); ("FIXED", 1); ("SPACEONLY", 2); ("MINIMUM", 3)]) (* tagid25_para_shape.py 39 *);
  (E_ParaShape_Align, [("BOTH", 0); ("LEFT", 1); ("RIGHT", 2); ("CENTER", 3); ("DISTRIBUTE", 4); ("DISTRIBUTE_SPACE", 5)]) (* tagid25_para_shape.py 40-41 *);
  (E_ParaShape_VAlign, [("FONT", 0); ("TOP", 1); ("CENTER", 2); ("BOTTOM", 3)]) (* tagid25_para_shape.py 42 *);
  (E_ParaShape_LineBreakAlphabet, [("WORD", 0); ("HYPHEN", 1); ("CHAR", 2)]) (* tagid25_para_shape.py 43 *);
  (E_ParaShape_LineBreakHangul, [("WORD", 0); ("CHAR", 1)]) (* tagid25_para_shape.py 44 *);
  (E_ParaShape_HeadShape, [("NONE", 0); ("OUTLINE", 1); ("NUMBER", 2); ("BULLET", 3)]) (* tagid25_para_shape.py 45 *);
  (E_Style_Kind, [("PARAGRAPH", 0); ("CHAR", 1)]) (* tagid26_style.py 38 *);
  (E_CompatibleDocument_Target, [("DEFAULT", 0); ("HWP2007", 1); ("MSWORD", 2)]) (* tagid30_compatible_document.py 35 *);
  (E_ListHeader_VAlign, [("TOP", 0); ("MIDDLE", 1); ("BOTTOM", 2)]) (* tagid56_list_header.py 65 *);
  (E_TableCaption_Position, [("LEFT", 0); ("RIGHT", 1); ("TOP", 2); ("BOTTOM", 3)]) (* tagid56_list_header.py 95 *);
  (E_PageDef_Orientation, [("PORTRAIT", 0); ("LANDSCAPE", 1)]) (* tagid57_page_def.py 33 *);
  (E_PageDef_BookBinding, [("LEFT", 0); ("RIGHT", 1); ("TOP", 2); ("BOTTOM", 3)]) (* tagid57_page_def.py 34 *);
  (E_PageBorderFill_RelativeTo, [("BODY", 0); ("PAPER", 1)]) (* tagid59_page_border_fill.py 34 *);
  (E_PageBorderFill_FillArea, [("PAPER", 0); ("PAGE", 1); ("BORDER", 2)]) (* tagid59_page_border_fill.py 35 *);
  (E_TableBody_Split, [("NONE", 0); ("BY_CELL", 1); ("SPLIT", 2)]) (* tagid61_table.py 53 *);
  (E_EqEdit_ScriptScope, [("CHAR", 0); ("LINE", 1)]) (* tagid72_ctrl_eqedit.py 34 *);
  (E_ColumnsDef_Kind, [("normal", 0); ("distribute", 1); ("parallel", 2)]) (* controls/columns_def.py 54 *);
  (E_ColumnsDef_Direction, [("l2r", 0); ("r2l", 1); ("both", 2)]) (* controls/columns_def.py 55 *);
  (E_CommonControl_Flow, [("FLOAT", 0); ("BLOCK", 1); ("BACK", 2); ("FRONT", 3)]) (* controls/common_controls.py 37 *);
  (E_CommonControl_TextSide, [("BOTH", 0); ("LEFT", 1); ("RIGHT", 2); ("LARGER", 3)]) (* controls/common_controls.py 38 *);
  (E_CommonControl_VRelTo, [("PAPER", 0); ("PAGE", 1); ("PARAGRAPH", 2)]) (* controls/common_controls.py 39 *);
  (E_CommonControl_HRelTo, [("PAPER", 0); ("PAGE", 1); ("COLUMN", 2); ("PARAGRAPH", 3)]) (* controls/common_controls.py 40 *);
  (E_CommonControl_VAlign, [("TOP", 0); ("MIDDLE", 1); ("BOTTOM", 2)]) (* controls/common_controls.py 41 *);
  (E_CommonControl_HAlign, [("LEFT", 0); ("CENTER", 1); ("RIGHT", 2); ("INSIDE", 3); ("OUTSIDE", 4)]) (* controls/common_controls.py 42 *);
  (E_CommonControl_WidthRelTo, [("PAPER", 0); ("PAGE", 1); ("COLUMN", 2); ("PARAGRAPH", 3); ("ABSOLUTE", 4)]) (* controls/common_controls.py 43 *);
  (E_CommonControl_HeightRelTo, [("PAPER", 0); ("PAGE", 1); ("ABSOLUTE", 2)]) (* controls/common_controls.py 44 *);
  (E_CommonControl_NumberCategory, [("NONE", 0); ("FIGURE", 1); ("TABLE", 2); ("EQUATION", 3)]) (* controls/common_controls.py 45 *);
  (E_Dutmal_Position, [("ABOVE", 0); ("BELOW", 1); ("CENTER", 2)]) (* controls/dutmal.py 34 *);
  (E_Dutmal_Align, [("BOTH", 0); ("LEFT", 1); ("RIGHT", 2); ("CENTER", 3); ("DISTRIBUTE", 4); ("DISTRIBUTE_SPACE", 5)]) (* controls/dutmal.py 35-36 *);
  (E_HeaderFooter_Places, [("BOTH_PAGES", 0); ("EVEN_PAGE", 1); ("ODD_PAGE", 2)]) (* controls/header_footer.py 32 *);
  (E_NumberingControl_Kind, [("PAGE", 0); ("FOOTNOTE", 1); ("ENDNOTE", 2); ("PICTURE", 3); ("TABLE", 4); ("EQUATION", 5); ("UNKNOWN6", 6)]) (* controls/numbering.py 33-36 *);
  (E_PageNumberPosition_Position, [("NONE", 0); ("TOP_LEFT", 1); ("TOP_CENTER", 2); ("TOP_RIGHT", 3); ("BOTTOM_LEFT", 4); ("BOTTOM_CENTER", 5); ("BOTTOM_RIGHT", 6); ("OUTSIDE_TOP", 7); ("OUTSIDE_BOTTOM", 8); ("INSIDE_TOP", 9); ("INSIDE_BOTTOM", 10)]) (* controls/page_number_position.py 34-38 *);
  (E_PageOddEven_OddEven, [("BOTH_PAGES", 0); ("EVEN_PAGE", 1); ("ODD_PAGE", 2)]) (* controls/page_odd_even.py 33 *) ].

(** ** Bit fields and layouts *)

(** _shared.py 94-98 *)
Definition T_Margin : ty node := struct_type
  [fld "left" HWPUNIT16_t;
   fld "right" HWPUNIT16_t;
   fld "top" HWPUNIT16_t;
   fld "bottom" HWPUNIT16_t].

(** _shared.py 103-105 *)
Definition T_Coord : ty node := struct_type
  [fld "x" SHWPUNIT_t;
   fld "y" SHWPUNIT_t].

(** _shared.py 118-119 *)
Definition F_Border_StrokeType : ty node := flags_type UINT8
  [("stroke_type", (0, 4, Some E_Border_StrokeEnum))].

(** _shared.py 139-140 *)
Definition F_Border_Width : ty node := flags_type UINT8
  [("width", (0, 4, Some E_Border_WidthEnum))].

(** _shared.py 142-145 *)
Definition T_Border : ty node := struct_type
  [fld "stroke_flags" F_Border_StrokeType;
   fld "width_flags" F_Border_Width;
   fld "color" COLORREF_t].

(** _shared.py 159-167 *)
Definition F_BorderLine_Flags : ty node := flags_type UINT32
  [("stroke", (0, 5, Some E_Border_StrokeEnum)); ("line_end", (6, 9, Some E_BorderLine_LineEnd)); ("arrow_start", (10, 15, Some E_BorderLine_ArrowShape)); ("arrow_end", (16, 21, Some E_BorderLine_ArrowShape)); ("arrow_start_size", (22, 25, Some E_BorderLine_ArrowSize)); ("arrow_end_size", (26, 29, Some E_BorderLine_ArrowSize)); ("arrow_start_fill", (30, 30, None)); ("arrow_end_fill", (31, 31, None))].

(** _shared.py 169-172 *)
Definition T_BorderLine : ty node := struct_type
  [fld "color" COLORREF_t;
   fld "width" INT32_t;
   fld "flags" F_BorderLine_Flags].

(** _shared.py 181-182 *)
Definition T_FillNone : ty node := struct_type
  [fld "size" UINT32_t].

(** _shared.py 190-191 *)
Definition F_FillColorPattern_PatternTypeFlags : ty node := flags_type UINT32
  [("pattern_type", (0, 7, Some E_FillColorPattern_PatternTypeEnum))].

(** _shared.py 193-196 *)
Definition T_FillColorPattern : ty node := struct_type
  [fld "background_color" COLORREF_t;
   fld "pattern_color" COLORREF_t;
   fld "pattern_type_flags" F_FillColorPattern_PatternTypeFlags].

(** _shared.py 217-218 *)
Definition F_FillImage_FillImageFlags : ty node := flags_type BYTE
  [("fillimage_type", (0, 16, Some E_FillImage_FillImageEnum))].

(** _shared.py 224-225 *)
Definition F_FillImage_EffectFlags : ty node := flags_type UINT8
  [("effect_type", (0, 8, Some E_FillImage_EffectEnum))].

(** _shared.py 227-232 *)
Definition T_FillImage : ty node := struct_type
  [fld "flags" F_FillImage_FillImageFlags;
   fld "brightness" INT8_t;
   fld "contrast" INT8_t;
   fld "effect" F_FillImage_EffectFlags;
   fld "bindata_id" UINT16_t].

(** _shared.py 237-239 *)
Definition T_Coord32 : ty node := struct_type
  [fld "x" UINT32_t;
   fld "y" UINT32_t].

(** _shared.py 244-245 *)
Definition F_GradationTypeFlags : ty node := flags_type BYTE
  [("gradation_type", (0, 8, Some E_GradationTypeEnum))].

(** _shared.py 249-256 *)
Definition T_FillGradation : ty node := struct_type
  [fld "type" F_GradationTypeFlags;
   fld "shear" UINT32_t;
   fld "center" T_Coord32;
   fld "blur" UINT32_t;
   fld "colors" (N_ARRAY UINT32 COLORREF_t)].

(** tagid16_document_properties.py 34-45 *)
Definition M_DocumentProperties : list field :=
  [fld "section_count" UINT16_t;
   fld "page_startnum" UINT16_t;
   fld "footnote_startnum" UINT16_t;
   fld "endnote_startnum" UINT16_t;
   fld "picture_startnum" UINT16_t;
   fld "table_startnum" UINT16_t;
   fld "math_startnum" UINT16_t;
   fld "list_id" UINT32_t;
   fld "paragraph_id" UINT32_t;
   fld "character_unit_loc_in_paragraph" UINT32_t].

(** tagid17_id_mappings.py 33-52 *)
Definition M_IdMappings : list field :=
  [fld "bindata" UINT32_t;
   fld "ko_fonts" UINT32_t;
   fld "en_fonts" UINT32_t;
   fld "cn_fonts" UINT32_t;
   fld "jp_fonts" UINT32_t;
   fld "other_fonts" UINT32_t;
   fld "symbol_fonts" UINT32_t;
   fld "user_fonts" UINT32_t;
   fld "borderfills" UINT32_t;
   fld "charshapes" UINT32_t;
   fld "tabdefs" UINT32_t;
   fld "numberings" UINT32_t;
   fld "bullets" UINT32_t;
   fld "parashapes" UINT32_t;
   fld "styles" UINT32_t;
   since [5; 0; 1; 7] (fld "memoshapes" UINT32_t)].

(** tagid18_bin_data.py 36-38 *)
Definition T_BinDataLink : ty node := struct_type
  [fld "abspath" BSTR_t;
   fld "relpath" BSTR_t].

(** tagid18_bin_data.py 43-45 *)
Definition T_BinDataEmbedding : ty node := struct_type
  [fld "storage_id" BinStorageId_t;
   fld "ext" BSTR_t].

(** tagid18_bin_data.py 50-51 *)
Definition T_BinDataStorage : ty node := struct_type
  [fld "storage_id" BinStorageId_t].

(** tagid18_bin_data.py 64-67 *)
Definition F_BinData_Flags : ty node := flags_type UINT16
  [("storage", (0, 3, Some E_BinData_StorageType)); ("compression", (4, 5, Some E_BinData_CompressionType)); ("access", (16, 17, Some E_BinData_AccessState))].

(** tagid18_bin_data.py 69-76 *)
Definition M_BinData : list field :=
  [fld "flags" F_BinData_Flags;
   fld "bindata" (selective (ref_member_flag "flags" "storage") [(0, T_BinDataLink); (1, T_BinDataEmbedding); (2, T_BinDataStorage)])].

(** tagid19_face_name.py 33-35 *)
Definition T_AlternateFont : ty node := struct_type
  [fld "kind" BYTE_t;
   fld "name" BSTR_t].

(** tagid19_face_name.py 86-96 *)
Definition T_Panose1 : ty node := struct_type
  [fld "family_type" BYTE_t;
   fld "serif_style" BYTE_t;
   fld "weight" BYTE_t;
   fld "proportion" BYTE_t;
   fld "contrast" BYTE_t;
   fld "stroke_variation" BYTE_t;
   fld "arm_style" BYTE_t;
   fld "letterform" BYTE_t;
   fld "midline" BYTE_t;
   fld "x_height" BYTE_t].

(** tagid19_face_name.py 109-113 *)
Definition F_FaceName_Flags : ty node := flags_type BYTE
  [("font_file_type", (0, 1, Some E_FaceName_FontFileType)); ("default", (5, 5, None)); ("metric", (6, 6, None)); ("alternate", (7, 7, None))].

(** tagid19_face_name.py 115-135 *)
Definition M_FaceName : list field :=
  [fld "flags" F_FaceName_Flags;
   fld "name" BSTR_t;
   when has_alternate (fld "alternate_font" T_AlternateFont);
   when has_metric (fld "panose1" T_Panose1);
   when has_default (fld "default_font" BSTR_t)].

(** tagid20_border_fill.py 42-46 *)
Definition F_BorderFill_BorderFlags : ty node := flags_type UINT16
  [("effect_3d", (0, 0, None)); ("effect_shadow", (1, 1, None)); ("slash", (2, 4, None)); ("backslash", (5, 6, None))].

(** tagid20_border_fill.py 49-52 *)
Definition F_BorderFill_FillFlags : ty node := flags_type UINT32
  [("colorpattern", (0, 0, None)); ("image", (1, 1, None)); ("gradation", (2, 2, None))].

(** tagid20_border_fill.py 54-85 *)
Definition M_BorderFill : list field :=
  [fld "borderflags" F_BorderFill_BorderFlags;
   fld "left" T_Border;
   fld "right" T_Border;
   fld "top" T_Border;
   fld "bottom" T_Border;
   fld "diagonal" T_Border;
   fld "fillflags" F_BorderFill_FillFlags;
   when fill_colorpattern (fld "fill_colorpattern" T_FillColorPattern);
   when fill_gradation (fld "fill_gradation" T_FillGradation);
   when fill_image (fld "fill_image" T_FillImage);
   when fill_gradation (fld "shape" UINT32_t);
   when fill_gradation (fld "blur_center" BYTE_t)].

(** tagid21_char_shape.py 48-50 *)
Definition T_ShadowSpace : ty node := struct_type
  [fld "x" INT8_t;
   fld "y" INT8_t].

(** tagid21_char_shape.py 65-71 *)
Definition F_CharShape_Flags : ty node := flags_type UINT32
  [("italic", (0, 0, None)); ("bold", (1, 1, None)); ("underline", (2, 3, Some E_CharShape_Underline)); ("underline_style", (4, 7, Some E_CharShape_UnderlineStyle)); ("outline", (8, 10, None)); ("shadow", (11, 13, None))].

(** tagid21_char_shape.py 73-87 *)
Definition M_CharShape : list field :=
  [fld "font_face" (LanguageStruct WORD_t);
   fld "letter_width_expansion" (LanguageStruct UINT8_t);
   fld "letter_spacing" (LanguageStruct INT8_t);
   fld "relative_size" (LanguageStruct INT8_t);
   fld "position" (LanguageStruct INT8_t);
   fld "basesize" INT32_t;
   fld "charshapeflags" F_CharShape_Flags;
   fld "shadow_space" T_ShadowSpace;
   fld "text_color" COLORREF_t;
   fld "underline_color" COLORREF_t;
   fld "shade_color" COLORREF_t;
   fld "shadow_color" COLORREF_t].

(** tagid22_tab_def.py 37-39 *)
Definition F_Tab_Flags : ty node := flags_type UINT32
  [("kind", (0, 7, Some E_Tab_Kind)); ("fill_type", (8, 15, None))].

(** tagid22_tab_def.py 42-44 *)
Definition T_Tab : ty node := struct_type
  [fld "pos" HWPUNIT_t;
   fld "flags" F_Tab_Flags].

(** tagid22_tab_def.py 53-55 *)
Definition F_TabDef_Flags : ty node := flags_type UINT32
  [("autotab_left", (0, 0, None)); ("autotab_right", (1, 1, None))].

(** tagid22_tab_def.py 58-60 *)
Definition M_TabDef : list field :=
  [fld "flags" F_TabDef_Flags;
   fld "tabs" (N_ARRAY UINT32 T_Tab)].

(** tagid23_numbering.py 41-45 *)
Definition F_NumberingLevel_Flags : ty node := flags_type UINT32
  [("align", (0, 1, Some E_NumberingLevel_Align)); ("auto_width", (2, 2, None)); ("auto_indent", (3, 3, None)); ("space_type", (4, 4, Some E_NumberingLevel_DistanceType))].

(** tagid23_numbering.py 48-54 *)
Definition T_NumberingLevel : ty node := struct_type
  [fld "flags" F_NumberingLevel_Flags;
   fld "width_correction" HWPUNIT16_t;
   fld "space" UINT16_t;
   fld "charshape_id" INT32_t;
   fld "numbering_format" BSTR_t].

(** tagid23_numbering.py 65-71 *)
Definition M_Numbering : list field :=
  [fld "levels" (ARRAY T_NumberingLevel 7);
   fld "starting_number" UINT16_t;
   since [5; 0; 3; 0] (fld "unknown" (ARRAY UINT32_t 7))].

(** tagid24_bullet.py 35-37 *)
Definition F_BulletFlags : ty node := flags_type UINT32
  [("align", (0, 1, Some E_BulletAlignEnum)); ("auto_indent", (3, 3, None))].

(** tagid24_bullet.py 46-52 *)
Definition M_Bullet : list field :=
  [fld "flags" F_BulletFlags;
   fld "width" HWPUNIT16_t;
   fld "space" UINT16_t;
   fld "charshape_id" INT32_t;
   fld "char" WCHAR_t].

(** tagid25_para_shape.py 46-63 *)
Definition F_ParaShape_Flags1 : ty node := flags_type UINT32
  [("linespacing_type", (0, 1, Some E_ParaShape_LineSpacingType)); ("align", (2, 4, Some E_ParaShape_Align)); ("linebreak_alphabet", (5, 6, Some E_ParaShape_LineBreakAlphabet)); ("linebreak_hangul", (7, 7, Some E_ParaShape_LineBreakHangul)); ("use_paper_grid", (8, 8, None)); ("minimum_space", (9, 15, None)); ("protect_single_line", (16, 16, None)); ("with_next_paragraph", (17, 17, None)); ("protect", (18, 18, None)); ("start_new_page", (19, 19, None)); ("valign", (20, 21, Some E_ParaShape_VAlign)); ("lineheight_along_fontsize", (22, 22, None)); ("head_shape", (23, 24, Some E_ParaShape_HeadShape)); ("level", (25, 27, None)); ("linked_border", (28, 28, None)); ("ignore_margin", (29, 29, None)); ("tail_shape", (30, 30, None))].

(** tagid25_para_shape.py 66-70 *)
Definition F_ParaShape_Flags2 : ty node := flags_type UINT32
  [("in_single_line", (0, 1, None)); ("reserved", (2, 3, None)); ("autospace_alphabet", (4, 4, None)); ("autospace_number", (5, 5, None))].

(** tagid25_para_shape.py 73-74 *)
Definition F_ParaShape_Flags3 : ty node := flags_type UINT32
  [("linespacing_type3", (0, 4, Some E_ParaShape_LineSpacingType))].

(** tagid25_para_shape.py 78-94 *)
Definition M_ParaShape : list field :=
  [fld "parashapeflags" F_ParaShape_Flags1;
   fld "doubled_margin_left" INT32_t;
   fld "doubled_margin_right" INT32_t;
   fld "indent" SHWPUNIT_t;
   fld "doubled_margin_top" INT32_t;
   fld "doubled_margin_bottom" INT32_t;
   fld "linespacing" SHWPUNIT_t;
   fld "tabdef_id" UINT16_t;
   fld "numbering_bullet_id" UINT16_t;
   fld "borderfill_id" UINT16_t;
   fld "border_left" HWPUNIT16_t;
   fld "border_right" HWPUNIT16_t;
   fld "border_top" HWPUNIT16_t;
   fld "border_bottom" HWPUNIT16_t;
   since [5; 0; 1; 7] (fld "flags2" F_ParaShape_Flags2)].

(** tagid26_style.py 39-40 *)
Definition F_Style_Flags : ty node := flags_type BYTE
  [("kind", (0, 1, Some E_Style_Kind))].

(** tagid26_style.py 42-54 *)
Definition M_Style : list field :=
  [fld "local_name" BSTR_t;
   fld "name" BSTR_t;
   fld "flags" F_Style_Flags;
   fld "next_style_id" BYTE_t;
   fld "lang_id" INT16_t;
   fld "parashape_id" UINT16_t;
   fld "charshape_id" UINT16_t;
   fld "unknown" UINT16_t].

(** tagid30_compatible_document.py 36-37 *)
Definition F_CompatibleDocument_Flags : ty node := flags_type UINT32
  [("target", (0, 1, None))].

(** tagid30_compatible_document.py 39-41 *)
Definition M_CompatibleDocument : list field :=
  [fld "flags" F_CompatibleDocument_Flags].

(** tagid31_layout_compatibility.py 32-38 *)
Definition M_LayoutCompatibility : list field :=
  [fld "char" UINT32_t;
   fld "paragraph" UINT32_t;
   fld "section" UINT32_t;
   fld "object" UINT32_t;
   fld "field" UINT32_t].

(** tagid50_para_header.py 37-41 *)
Definition F_Paragraph_SplitFlags : ty node := flags_type BYTE
  [("new_section", (0, 0, None)); ("new_columnsdef", (1, 1, None)); ("new_page", (2, 2, None)); ("new_column", (3, 3, None))].

(** tagid50_para_header.py 42-45 *)
Definition F_Paragraph_ControlMask : ty node := flags_type UINT32
  [("unknown1", (2, 2, None)); ("control", (11, 11, None)); ("new_number", (21, 21, None))].

(** tagid50_para_header.py 46-48 *)
Definition F_Paragraph_Flags : ty node := flags_type UINT32
  [("unknown", (31, 31, None)); ("chars", (0, 30, None))].

(** tagid50_para_header.py 50-60 *)
Definition M_Paragraph : list field :=
  [fld "text" F_Paragraph_Flags;
   fld "controlmask" F_Paragraph_ControlMask;
   fld "parashape_id" UINT16_t;
   fld "style_id" BYTE_t;
   fld "split" F_Paragraph_SplitFlags;
   fld "charshapes" UINT16_t;
   fld "rangetags" UINT16_t;
   fld "linesegs" UINT16_t;
   fld "instance_id" UINT32_t].

(** tagid51_para_text.py 59-60 *)
Definition M_ParaText : list field :=
  [fld "chunks" ParaTextChunks_t].

(** tagid52_para_char_shape.py 39-43 *)
Definition M_ParaCharShape : list field :=
  [fld "charshapes" (X_ARRAY (ARRAY UINT32_t 2) (ref_parent_member "charshapes"))].

(** tagid53_para_line_seg.py 38-46 *)
Definition F_LineSeg_Flags : ty node := flags_type UINT32
  [("line_head", (17, 17, None)); ("line_tail", (18, 18, None)); ("indented", (20, 20, None)); ("bullet", (21, 21, None))].

(** tagid53_para_line_seg.py 48-57 *)
Definition T_LineSeg : ty node := struct_type
  [fld "chpos" INT32_t;
   fld "y" SHWPUNIT_t;
   fld "height" SHWPUNIT_t;
   fld "height_text" SHWPUNIT_t;
   fld "height_baseline" SHWPUNIT_t;
   fld "space_below" SHWPUNIT_t;
   fld "x" SHWPUNIT_t;
   fld "width" SHWPUNIT_t;
   fld "lineseg_flags" F_LineSeg_Flags].

(** tagid53_para_line_seg.py 66-69 *)
Definition M_ParaLineSeg : list field :=
  [fld "linesegs" (X_ARRAY T_LineSeg (ref_parent_member "linesegs"))].

(** tagid54_para_range_tag.py 35-37 *)
Definition F_RangeTag_Tag : ty node := flags_type UINT32
  [("data", (0, 23, None)); ("kind", (24, 31, None))].

(** tagid54_para_range_tag.py 40-43 *)
Definition T_RangeTag : ty node := struct_type
  [fld "start" UINT32_t;
   fld "end" UINT32_t;
   fld "tag" F_RangeTag_Tag].

(** tagid54_para_range_tag.py 52-54 *)
Definition M_ParaRangeTag : list field :=
  [fld "range_tags" (X_ARRAY T_RangeTag (ref_parent_member "rangetags"))].

(** tagid56_list_header.py 66-69 *)
Definition F_ListHeader_Flags : ty node := flags_type UINT32
  [("textdirection", (0, 2, None)); ("linebreak", (3, 4, None)); ("valign", (5, 6, Some E_ListHeader_VAlign))].

(** tagid56_list_header.py 71-75 *)
Definition M_ListHeader : list field :=
  [fld "paragraphs" UINT16_t;
   fld "unknown1" UINT16_t;
   fld "listflags" F_ListHeader_Flags].

(** tagid56_list_header.py 96-99 *)
Definition F_TableCaption_Flags : ty node := flags_type UINT32
  [("position", (0, 1, Some E_TableCaption_Position)); ("expand_to_margin", (2, 2, None))].

(** tagid56_list_header.py 101-106 *)
Definition M_TableCaption : list field :=
  [fld "flags" F_TableCaption_Flags;
   fld "width" HWPUNIT_t;
   fld "separation" HWPUNIT16_t;
   fld "max_width" HWPUNIT_t].

(** tagid56_list_header.py 115-124 *)
Definition M_TableCell : list field :=
  [fld "col" UINT16_t;
   fld "row" UINT16_t;
   fld "colspan" UINT16_t;
   fld "rowspan" UINT16_t;
   fld "width" SHWPUNIT_t;
   fld "height" SHWPUNIT_t;
   fld "padding" T_Margin;
   fld "borderfill_id" UINT16_t;
   fld "unknown_width" SHWPUNIT_t].

(** tagid56_list_header.py 136-138 *)
Definition M_TextboxParagraphList : list field :=
  [fld "padding" T_Margin;
   fld "maxwidth" HWPUNIT_t].

(** tagid56_list_header.py 144-148 *)
Definition M_HeaderFooterParagraphList : list field :=
  [fld "width" HWPUNIT_t;
   fld "height" HWPUNIT_t;
   fld "textrefsbitmap" BYTE_t;
   fld "numberrefsbitmap" BYTE_t].

(** tagid57_page_def.py 35-37 *)
Definition F_PageDef_Flags : ty node := flags_type UINT32
  [("orientation", (0, 0, Some E_PageDef_Orientation)); ("bookbinding", (1, 2, Some E_PageDef_BookBinding))].

(** tagid57_page_def.py 39-49 *)
Definition M_PageDef : list field :=
  [fld "width" HWPUNIT_t;
   fld "height" HWPUNIT_t;
   fld "left_offset" HWPUNIT_t;
   fld "right_offset" HWPUNIT_t;
   fld "top_offset" HWPUNIT_t;
   fld "bottom_offset" HWPUNIT_t;
   fld "header_offset" HWPUNIT_t;
   fld "footer_offset" HWPUNIT_t;
   fld "bookbinding_offset" HWPUNIT_t;
   fld "attr" F_PageDef_Flags].

(** tagid58_footnote_shape.py 36 *)
Definition F_FootnoteShape_Flags : ty node := flags_type UINT32
  [].

(** tagid58_footnote_shape.py 38-51 *)
Definition M_FootnoteShape : list field :=
  [fld "flags" F_FootnoteShape_Flags;
   fld "usersymbol" WCHAR_t;
   fld "prefix" WCHAR_t;
   fld "suffix" WCHAR_t;
   fld "starting_number" UINT16_t;
   fld "splitter_length" HWPUNIT16_t;
   fld "splitter_unknown" HWPUNIT16_t;
   fld "splitter_margin_top" HWPUNIT16_t;
   fld "splitter_margin_bottom" HWPUNIT16_t;
   fld "notes_spacing" HWPUNIT16_t;
   fld "splitter_stroke_type" F_Border_StrokeType;
   fld "splitter_width" F_Border_Width;
   fld "splitter_color" COLORREF_t].

(** tagid59_page_border_fill.py 36-40 *)
Definition F_PageBorderFill_Flags : ty node := flags_type UINT32
  [("relative_to", (0, 0, Some E_PageBorderFill_RelativeTo)); ("include_header", (1, 1, None)); ("include_footer", (2, 2, None)); ("fill", (3, 4, Some E_PageBorderFill_FillArea))].

(** tagid59_page_border_fill.py 42-45 *)
Definition M_PageBorderFill : list field :=
  [fld "flags" F_PageBorderFill_Flags;
   fld "margin" T_Margin;
   fld "borderfill_id" UINT16_t].

(** tagid60_shape_component.py 56-62 *)
Definition T_Matrix : ty node := struct_type
  [fld "a" DOUBLE_t;
   fld "c" DOUBLE_t;
   fld "e" DOUBLE_t;
   fld "b" DOUBLE_t;
   fld "d" DOUBLE_t;
   fld "f" DOUBLE_t].

(** tagid60_shape_component.py 67-69 *)
Definition T_ScaleRotationMatrix : ty node := struct_type
  [fld "scaler" T_Matrix;
   fld "rotator" T_Matrix].

(** tagid60_shape_component.py 118-121 *)
Definition F_ShapeComponent_FillFlags : ty node := flags_type UINT16
  [("fill_colorpattern", (8, 8, None)); ("fill_image", (9, 9, None)); ("fill_gradation", (10, 10, None))].

(** tagid60_shape_component.py 122-123 *)
Definition F_ShapeComponent_Flags : ty node := flags_type UINT32
  [("flip", (0, 0, None))].

(** tagid60_shape_component.py 125-192 *)
Definition M_ShapeComponent : list field :=
  [when parent_must_be_gso (fld "chid0" CHID_t);
   fld "chid" CHID_t;
   fld "x_in_group" SHWPUNIT_t;
   fld "y_in_group" SHWPUNIT_t;
   fld "level_in_group" WORD_t;
   fld "local_version" WORD_t;
   fld "initial_width" SHWPUNIT_t;
   fld "initial_height" SHWPUNIT_t;
   fld "width" SHWPUNIT_t;
   fld "height" SHWPUNIT_t;
   fld "flags" F_ShapeComponent_Flags;
   fld "angle" WORD_t;
   fld "rotation_center" T_Coord;
   fld "scalerotations_count" WORD_t;
   fld "translation" T_Matrix;
   fld "scalerotations" (X_ARRAY T_ScaleRotationMatrix (ref_member_int "scalerotations_count"));
   when chid_is_container (fld "controls" (N_ARRAY WORD CHID_t));
   when chid_is_rect (fld "border" T_BorderLine);
   when chid_is_rect (fld "fill_flags" F_ShapeComponent_FillFlags);
   when chid_is_rect (fld "unknown" UINT16_t);
   when chid_is_rect (fld "unknown1" UINT8_t);
   when chid_is_rect_and_fill_colorpattern (fld "fill_colorpattern" T_FillColorPattern);
   when chid_is_rect_and_fill_gradation (fld "fill_gradation" T_FillGradation);
   when chid_is_rect_and_fill_image (fld "fill_image" T_FillImage);
   when chid_is_rect (fld "fill_shape" UINT32_t);
   when chid_is_rect_and_fill_gradation (fld "fill_blur_center" BYTE_t);
   since [5; 0; 2; 4] (when chid_is_rect (fld "unknown2" (HexBytes_t 5)));
   since [5; 0; 2; 4] (when chid_is_rect (fld "unknown3" (HexBytes_t 16)));
   when chid_is_line (fld "line" T_BorderLine)].

(** tagid61_table.py 38-44 *)
Definition T_ZoneInfo : ty node := struct_type
  [fld "starting_column" UINT16_t;
   fld "starting_row" UINT16_t;
   fld "end_column" UINT16_t;
   fld "end_row" UINT16_t;
   fld "borderfill_id" UINT16_t].

(** tagid61_table.py 54-56 *)
Definition F_TableBody_Flags : ty node := flags_type UINT32
  [("split_page", (0, 1, Some E_TableBody_Split)); ("repeat_header", (2, 2, None))].

(** tagid61_table.py 58-73 *)
Definition M_TableBody : list field :=
  [fld "flags" F_TableBody_Flags;
   fld "rows" UINT16_t;
   fld "cols" UINT16_t;
   fld "cellspacing" HWPUNIT16_t;
   fld "padding" T_Margin;
   fld "rowcols" (X_ARRAY UINT16_t (ref_member_int "rows"));
   fld "borderfill_id" UINT16_t;
   since [5; 0; 0; 7] (fld "validZones" (N_ARRAY UINT16 T_ZoneInfo))].

(** tagid62_shape_component_line.py 33-37 *)
Definition M_ShapeLine : list field :=
  [fld "p0" T_Coord;
   fld "p1" T_Coord;
   fld "attr" UINT16_t].

(** tagid63_shape_component_rectangle.py 33-39 *)
Definition M_ShapeRectangle : list field :=
  [fld "round" BYTE_t;
   fld "p0" T_Coord;
   fld "p1" T_Coord;
   fld "p2" T_Coord;
   fld "p3" T_Coord].

(** tagid64_shape_component_ellipse.py 35-38 *)
Definition F_ShapeEllipse_Flags : ty node := flags_type UINT32
  [("arc_recalc_required", (0, 0, None)); ("arc", (1, 1, None)); ("arc_kind", (2, 9, None))].

(** tagid64_shape_component_ellipse.py 40-49 *)
Definition M_ShapeEllipse : list field :=
  [fld "flags" F_ShapeEllipse_Flags;
   fld "center" T_Coord;
   fld "axis1" T_Coord;
   fld "axis2" T_Coord;
   fld "start1" T_Coord;
   fld "end1" T_Coord;
   fld "start2" T_Coord;
   fld "end2" T_Coord].

(** tagid65_shape_component_arc.py 32-37 *)
Definition M_ShapeArc : list field :=
  [fld "center" T_Coord;
   fld "axis1" T_Coord;
   fld "axis2" T_Coord].

(** tagid66_shape_component_polygon.py 34-36 *)
Definition M_ShapePolygon : list field :=
  [fld "points" (N_ARRAY UINT16 T_Coord)].

(** tagid67_shape_component_curve.py 35-37 *)
Definition M_ShapeCurve : list field :=
  [fld "points" (N_ARRAY UINT16 T_Coord)].

(** tagid68_shape_component_ole.py 37-44 *)
Definition F_ShapeOLE_Flags : ty node := flags_type UINT32
  [("dvaspect", (0, 7, None)); ("moniker", (8, 8, None)); ("baseline", (9, 15, None))].

(** tagid68_shape_component_ole.py 47-52 *)
Definition M_ShapeOLE : list field :=
  [fld "flags" F_ShapeOLE_Flags;
   fld "extent_x" INT32_t;
   fld "extent_y" INT32_t;
   fld "storage_id" BinStorageId_t;
   fld "border" T_BorderLine].

(** tagid69_shape_component_picture.py 39-43 *)
Definition T_PictureInfo : ty node := struct_type
  [fld "brightness" INT8_t;
   fld "contrast" INT8_t;
   fld "effect" BYTE_t;
   fld "bindata_id" UINT16_t].

(** tagid69_shape_component_picture.py 50 *)
Definition F_PictureEffect_Flags : ty node := flags_type UINT32
  [].

(** tagid69_shape_component_picture.py 53-54 *)
Definition T_PictureEffect : ty node := struct_type
  [fld "flags" F_PictureEffect_Flags].

(** tagid69_shape_component_picture.py 62-66 *)
Definition T_ImageRect : ty node := struct_type
  [fld "p0" T_Coord;
   fld "p1" T_Coord;
   fld "p2" T_Coord;
   fld "p3" T_Coord].

(** tagid69_shape_component_picture.py 74-78 *)
Definition T_ImageClip : ty node := struct_type
  [fld "left" SHWPUNIT_t;
   fld "top" SHWPUNIT_t;
   fld "right" SHWPUNIT_t;
   fld "bottom" SHWPUNIT_t].

(** tagid69_shape_component_picture.py 86-100 *)
Definition M_ShapePicture : list field :=
  [fld "border" T_BorderLine;
   fld "rect" T_ImageRect;
   fld "clip" T_ImageClip;
   fld "padding" T_Margin;
   fld "picture" T_PictureInfo;
   since [5; 0; 2; 2] (fld "border_transparency" BYTE_t);
   since [5; 0; 2; 5] (fld "instance_id" UINT32_t);
   since [5; 0; 3; 4] (fld "picture_effect" T_PictureEffect)].

(** tagid72_ctrl_eqedit.py 35-36 *)
Definition F_EqEdit_Flags : ty node := flags_type UINT32
  [("script_scope", (0, 0, Some E_EqEdit_ScriptScope))].

(** tagid72_ctrl_eqedit.py 39-44 *)
Definition M_EqEdit : list field :=
  [].

(** controls/_shared.py 50-51 *)
Definition M_Control : list field :=
  [fld "chid" CHID_t].

(** controls/bookmark_control.py 35-37 *)
Definition M_BookmarkControl : list field :=
  [].

(** controls/bookmark_control.py 45-49 *)
Definition M_BookmarkControlData : list field :=
  [fld "unknown1" UINT32_t;
   fld "unknown2" UINT32_t;
   fld "unknown3" UINT16_t;
   fld "name" BSTR_t].

(** controls/columns_def.py 39-40 *)
Definition T_Column0 : ty node := struct_type
  [fld "width" WORD_t].

(** controls/columns_def.py 45-47 *)
Definition T_Column : ty node := struct_type
  [fld "spacing" WORD_t;
   fld "width" WORD_t].

(** controls/columns_def.py 56-60 *)
Definition F_ColumnsDef_Flags : ty node := flags_type UINT16
  [("kind", (0, 1, Some E_ColumnsDef_Kind)); ("count", (2, 9, None)); ("direction", (10, 11, Some E_ColumnsDef_Direction)); ("same_widths", (12, 12, None))].

(** controls/columns_def.py 62-83 *)
Definition M_ColumnsDef : list field :=
  [fld "flags" F_ColumnsDef_Flags;
   fld "spacing" HWPUNIT16_t;
   when not_same_widths (fld "column0" T_Column0);
   when not_same_widths (fld "columns" (X_ARRAY T_Column (n_entries (ref_member_flag "flags" "count"))));
   fld "attr2" UINT16_t;
   fld "splitter" T_Border].

(** controls/common_controls.py 47-61 *)
Definition F_CommonControl_CommonControlFlags : ty node := flags_type UINT32
  [("inline", (0, 0, None)); ("affect_line_spacing", (2, 2, None)); ("vrelto", (3, 4, Some E_CommonControl_VRelTo)); ("valign", (5, 7, Some E_CommonControl_VAlign)); ("hrelto", (8, 9, Some E_CommonControl_HRelTo)); ("halign", (10, 12, Some E_CommonControl_HAlign)); ("restrict_in_page", (13, 13, None)); ("overlap_others", (14, 14, None)); ("width_relto", (15, 17, Some E_CommonControl_WidthRelTo)); ("height_relto", (18, 19, Some E_CommonControl_HeightRelTo)); ("protect_size_when_vrelto_paragraph", (20, 20, None)); ("flow", (21, 23, Some E_CommonControl_Flow)); ("text_side", (24, 25, Some E_CommonControl_TextSide)); ("number_category", (26, 27, Some E_CommonControl_NumberCategory))].

(** controls/common_controls.py 68-80 *)
Definition M_CommonControl : list field :=
  [fld "flags" F_CommonControl_CommonControlFlags;
   fld "y" SHWPUNIT_t;
   fld "x" SHWPUNIT_t;
   fld "width" HWPUNIT_t;
   fld "height" HWPUNIT_t;
   fld "z_order" INT16_t;
   fld "unknown1" INT16_t;
   fld "margin" T_Margin;
   fld "instance_id" UINT32_t;
   since [5; 0; 0; 5] (fld "unknown2" INT16_t);
   since [5; 0; 0; 5] (fld "description" BSTR_t)].

(** controls/dutmal.py 38-47 *)
Definition M_Dutmal : list field :=
  [fld "maintext" BSTR_t;
   fld "subtext" BSTR_t;
   fld "position-flags" (flags_type UINT32 [("position", (0, 31, Some E_Dutmal_Position))]);
   fld "fsizeratio" UINT32_t;
   fld "option" UINT32_t;
   fld "stylenumber" UINT32_t;
   fld "align-flags" (flags_type UINT32 [("align", (0, 31, Some E_Dutmal_Align))])].

(** controls/field.py 35-38 *)
Definition F_Field_Flags : ty node := flags_type UINT32
  [("editableInReadOnly", (0, 0, None)); ("visitedType", (11, 14, None)); ("modified", (15, 15, None))].

(** controls/field.py 40-44 *)
Definition M_Field : list field :=
  [fld "flags" F_Field_Flags;
   fld "extra_attr" BYTE_t;
   fld "command" BSTR_t;
   fld "id" UINT32_t].

(** controls/header_footer.py 33-34 *)
Definition F_HeaderFooter_Flags : ty node := flags_type UINT32
  [("places", (0, 1, Some E_HeaderFooter_Places))].

(** controls/header_footer.py 36-37 *)
Definition M_HeaderFooter : list field :=
  [fld "flags" F_HeaderFooter_Flags].

(** controls/hidden_comment.py 31-33 *)
Definition M_HiddenComment : list field :=
  [].

(** controls/index_marker.py 33-36 *)
Definition M_IndexMarker : list field :=
  [fld "keyword1" BSTR_t;
   fld "keyword2" BSTR_t;
   fld "dummy" UINT16_t].

(** controls/note.py 31-36 *)
Definition M_Note : list field :=
  [fld "number" UINT32_t;
   fld "unknown0" UINT32_t;
   fld "unknown1" UINT32_t;
   since [5; 0; 3; 0] (fld "unknown2" UINT16_t);
   since [5; 0; 3; 0] (fld "unknown3" UINT16_t)].

(** controls/numbering.py 37-40 *)
Definition F_NumberingControl_Flags : ty node := flags_type UINT32
  [("kind", (0, 3, Some E_NumberingControl_Kind)); ("footnoteshape", (4, 11, None)); ("superscript", (12, 12, None))].

(** controls/numbering.py 42-44 *)
Definition M_NumberingControl : list field :=
  [fld "flags" F_NumberingControl_Flags;
   fld "number" UINT16_t].

(** controls/numbering.py 52-55 *)
Definition M_AutoNumbering : list field :=
  [fld "usersymbol" WCHAR_t;
   fld "prefix" WCHAR_t;
   fld "suffix" WCHAR_t].

(** controls/page_hide.py 32-38 *)
Definition F_PageHide_Flags : ty node := flags_type UINT32
  [("header", (0, 0, None)); ("footer", (1, 1, None)); ("basepage", (2, 2, None)); ("pageborder", (3, 3, None)); ("pagefill", (4, 4, None)); ("pagenumber", (5, 5, None))].

(** controls/page_hide.py 40-41 *)
Definition M_PageHide : list field :=
  [fld "flags" F_PageHide_Flags].

(** controls/page_number_position.py 39-41 *)
Definition F_PageNumberPosition_Flags : ty node := flags_type UINT32
  [("shape", (0, 7, None)); ("position", (8, 11, Some E_PageNumberPosition_Position))].

(** controls/page_number_position.py 43-48 *)
Definition M_PageNumberPosition : list field :=
  [fld "flags" F_PageNumberPosition_Flags;
   fld "usersymbol" WCHAR_t;
   fld "prefix" WCHAR_t;
   fld "suffix" WCHAR_t;
   fld "dash" WCHAR_t].

(** controls/page_odd_even.py 34-35 *)
Definition F_PageOddEven_Flags : ty node := flags_type UINT32
  [("pages", (0, 1, Some E_PageOddEven_OddEven))].

(** controls/page_odd_even.py 37-38 *)
Definition M_PageOddEven : list field :=
  [fld "flags" F_PageOddEven_Flags].

(** controls/section_def.py 38-50 *)
Definition F_SectionDef_Flags : ty node := flags_type UINT32
  [("hide_header", (0, 0, None)); ("hide_footer", (1, 1, None)); ("hide_page", (2, 2, None)); ("hide_border", (3, 3, None)); ("hide_background", (4, 4, None)); ("hide_pagenumber", (5, 5, None)); ("show_border_on_first_page_only", (8, 8, None)); ("show_background_on_first_page_only", (9, 9, None)); ("text_direction", (16, 18, None)); ("hide_blank_line", (19, 19, None)); ("pagenum_on_split_section", (20, 21, None)); ("squared_manuscript_paper", (22, 22, None))].

(** controls/section_def.py 52-64 *)
Definition M_SectionDef : list field :=
  [fld "flags" F_SectionDef_Flags;
   fld "columnspacing" HWPUNIT16_t;
   fld "grid_vertical" HWPUNIT16_t;
   fld "grid_horizontal" HWPUNIT16_t;
   fld "defaultTabStops" HWPUNIT_t;
   fld "numbering_shape_id" UINT16_t;
   fld "starting_pagenum" UINT16_t;
   fld "starting_picturenum" UINT16_t;
   fld "starting_tablenum" UINT16_t;
   fld "starting_equationnum" UINT16_t;
   since [5; 0; 1; 7] (fld "unknown1" UINT32_t);
   since [5; 0; 1; 7] (fld "unknown2" UINT32_t)].

(** controls/section_def.py 71-72 *)
Definition M_SectionDefData : list field :=
  [fld "unknown" (HexBytes_t 280)].

(** controls/tcps_control.py 32-33 *)
Definition M_TCPSControl : list field :=
  [fld "textlength" BSTR_t].

(** The classes whose body defines [attributes], with their own members. *)
Definition own_members : list (string * list field) :=
 [("DocumentProperties", M_DocumentProperties);
  ("IdMappings", M_IdMappings);
  ("BinData", M_BinData);
  ("FaceName", M_FaceName);
  ("BorderFill", M_BorderFill);
  ("CharShape", M_CharShape);
  ("TabDef", M_TabDef);
  ("Numbering", M_Numbering);
  ("Bullet", M_Bullet);
  ("ParaShape", M_ParaShape);
  ("Style", M_Style);
  ("CompatibleDocument", M_CompatibleDocument);
  ("LayoutCompatibility", M_LayoutCompatibility);
  ("Paragraph", M_Paragraph);
  ("ParaText", M_ParaText);
  ("ParaCharShape", M_ParaCharShape);
  ("ParaLineSeg", M_ParaLineSeg);
  ("ParaRangeTag", M_ParaRangeTag);
  ("ListHeader", M_ListHeader);
  ("TableCaption", M_TableCaption);
  ("TableCell", M_TableCell);
  ("TextboxParagraphList", M_TextboxParagraphList);
  ("HeaderFooterParagraphList", M_HeaderFooterParagraphList);
  ("PageDef", M_PageDef);
  ("FootnoteShape", M_FootnoteShape);
  ("PageBorderFill", M_PageBorderFill);
  ("ShapeComponent", M_ShapeComponent);
  ("TableBody", M_TableBody);
  ("ShapeLine", M_ShapeLine);
  ("ShapeRectangle", M_ShapeRectangle);
  ("ShapeEllipse", M_ShapeEllipse);
  ("ShapeArc", M_ShapeArc);
  ("ShapePolygon", M_ShapePolygon);
  ("ShapeCurve", M_ShapeCurve);
  ("ShapeOLE", M_ShapeOLE);
  ("ShapePicture", M_ShapePicture);
  ("EqEdit", M_EqEdit);
  ("Control", M_Control);
  ("BookmarkControl", M_BookmarkControl);
  ("BookmarkControlData", M_BookmarkControlData);
  ("ColumnsDef", M_ColumnsDef);
  ("CommonControl", M_CommonControl);
  ("Dutmal", M_Dutmal);
  ("Field", M_Field);
  ("HeaderFooter", M_HeaderFooter);
  ("HiddenComment", M_HiddenComment);
  ("IndexMarker", M_IndexMarker);
  ("Note", M_Note);
  ("NumberingControl", M_NumberingControl);
  ("AutoNumbering", M_AutoNumbering);
  ("PageHide", M_PageHide);
  ("PageNumberPosition", M_PageNumberPosition);
  ("PageOddEven", M_PageOddEven);
  ("SectionDef", M_SectionDef);
  ("SectionDefData", M_SectionDefData);
  ("TCPSControl", M_TCPSControl) ].
