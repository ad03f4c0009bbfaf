(** Specification of the record layouts of HWP 5: for every kind of record its
    members in order, written as in a format description, and what such a
    description says about a byte string.  The reading functions here know
    nothing of streams, events or fuel. *)
From Coq Require Import ZArith String List Bool.
From Verif Require Import Base Model_Text Model_Dataio Model_Record Model_ParaText Model_Bintype Model_Layouts Model_Models Spec_Dataio Spec_Models.
Import ListNotations.
Open Scope string_scope.
Open Scope list_scope.
Open Scope Z_scope.

(** ** What is read

    A value as the user sees it: bit fields with the number and, by name, the
    number of each group and the name of that number if it has one. *)
Inductive view : Type :=
| Int (n : Z)
| Double (bits : Z)
| Text (t : list Z)
| Bytes (b : list Z)
| Chunks (l : list ((Z * Z) * chunk))
| Flags (n : Z) (groups : list (string * (Z * option string)))
| Items (l : list view)
| Members (d : list (string * view)).

(** The values of the model as the user sees them: [dictvalue] and the name of
    an enumeration value, both from the declarations in the model. *)
Definition named (type : option Z) (n : Z) : option string :=
  match type with
  | None => None
  | Some t => match zdict_get t enum_table with
              | None => None
              | Some items => match make_enum [] items with
                              | Ok st => enum_name st (enum_call st n)
                              | Raise _ => None
                              end
              end
  end.
Fixpoint view_of (v : value) : view :=
  match v with
  | VInt n => Int n
  | VDouble n => Double n
  | VFlags groups n =>
      Flags n (map (fun g => match g with
                             | (name, (lsb, msb, type)) => let x := get_int_value lsb msb n in (name, (x, named type x))
                             end) groups)
  | VText t => Text t
  | VBytes b => Bytes b
  | VChunks l => Chunks l
  | VTuple l | VList l => Items (map view_of l)
  | VDict d => Members (map (fun kv => (fst kv, view_of (snd kv))) d)
  end.
Definition views (d : list (string * value)) : list (string * view) := map (fun kv => (fst kv, view_of (snd kv))) d.

(** ** Descriptions *)

(** A group of bits: its name, lowest and highest bit, and the enumeration of
    its values, if any. *)
Inductive group : Type := Group (name : string) (low high : Z) (enumeration : option string).
Definition bit (name : string) (n : Z) : group := Group name n n None.
Definition bits (name : string) (low high : Z) : group := Group name low high None.
Definition enum (name : string) (low high : Z) (e : string) : group := Group name low high (Some e).

(** When a member is there: a bit group of an earlier member is not zero, or is
    zero; the member "chid" is an id; the parent record has a type. *)
Inductive test : Type :=
| Always
| IsSet (member group : string)
| IsClear (member group : string)
| IdIs (id : string)
| ParentIs (type : string)
| Both (a b : test).

(** How often: the number in an earlier member, in a member of the parent, or a
    bit group less one.  Negative: not at all. *)
Inductive count : Type :=
| Member (name : string)
| ParentMember (name : string)
| GroupLessOne (member group : string).

(** Numbers are little endian; [Real] is an IEEE double, kept as its 64 bits;
    [Id4] is four characters stored backwards.  [Choice m g l]: the one of [l]
    with the number in the group [g] of the member [m]; if there is none,
    nothing is read and the member is missing.  Widths in bytes. *)
Inductive kind : Type :=
| Unsigned (width : nat)
| Signed (width : nat)
| Real
| Id4
| Prefixed                                  (* UTF-16LE, 16-bit number of code units first *)
| Hexadecimal (size : Z)                    (* that many bytes, shown in hexadecimal *)
| Paragraph                                 (* the rest of the payload as paragraph text *)
| Bits (width : nat) (groups : list group)
| Fields (fs : list (string * (Z * Z * Z * Z) * test * kind))
| Repeat (n : nat) (k : kind)
| Counted (width : nat) (k : kind)          (* the number first *)
| Times (n : count) (k : kind)
| Choice (member group : string) (l : list (Z * kind)).

Definition field_spec : Type := (string * (Z * Z * Z * Z) * test * kind)%type.
Definition u8 := Unsigned 1.
Definition u16 := Unsigned 2.
Definition u32 := Unsigned 4.
Definition i8 := Signed 1.
Definition i16 := Signed 2.
Definition i32 := Signed 4.
Definition text := Prefixed.
Definition chunks := Paragraph.
Definition hexbytes := Hexadecimal.
Definition always (name : string) (k : kind) : field_spec := (name, (0, 0, 0, 0), Always, k).
Local Infix "#" := always (at level 50).
(** only from a version of the format on *)
Definition from (v : Z * Z * Z * Z) (f : field_spec) : field_spec := let '(n, _, t, k) := f in (n, v, t, k).
Definition ifso (t : test) (f : field_spec) : field_spec := let '(n, v, _, k) := f in (n, v, t, k).
Definition by_language (k : kind) : kind :=
  Fields ["ko" # k; "en" # k; "cn" # k; "jp" # k; "other" # k; "symbol" # k; "user" # k].

(** ** Their meaning *)

(** What is known of the parent record: its type and its members. *)
Record parent : Type := Parent { p_type : option string; p_members : option (list (string * view)) }.

Definition not_older (version : list Z) (v : Z * Z * Z * Z) : bool :=
  let '(a, b, c, d) := v in
  match version with
  | [w; x; y; z] =>
      (a <? w) || (a =? w) && ((b <? x) || (b =? x) && ((c <? y) || (c =? y) && (d <=? z)))
  | _ => false
  end.

Definition look {V} (name : string) (env : list (string * V)) : option V :=
  option_map snd (find (fun kv => String.eqb name (fst kv)) env).
Definition look_group (member group : string) (env : list (string * view)) : option Z :=
  match look member env with
  | Some (Flags _ gs) => option_map fst (look group gs)
  | _ => None
  end.

(** [None]: there is nothing to test *)
Fixpoint holds (p : parent) (env : list (string * view)) (t : test) : option bool :=
  match t with
  | Always => Some true
  | IsSet m g => option_map (fun n => negb (n =? 0)) (look_group m g env)
  | IsClear m g => option_map (fun n => n =? 0) (look_group m g env)
  | IdIs id => match look "chid" env with
               | Some (Text t) => Some (if list_eq_dec Z.eq_dec t (zs id) then true else false)
               | Some _ => Some false
               | None => None
               end
  | ParentIs t => option_map (fun t' => String.eqb t' t) (p_type p)
  | Both a b => match holds p env a with Some true => holds p env b | x => x end
  end.

Definition number_in (v : option view) : option Z :=
  match v with Some (Int n) => Some n | Some (Flags n _) => Some n | _ => None end.
Definition how_often (p : parent) (env : list (string * view)) (c : count) : option Z :=
  match c with
  | Member name => number_in (look name env)
  | ParentMember name => match p_members p with Some d => number_in (look name d) | None => None end
  | GroupLessOne m g => option_map (fun n => n - 1) (look_group m g env)
  end.

(** Little endian: the first byte counts least. *)
Fixpoint unsigned (width : nat) (b : list Z) : option (Z * list Z) :=
  match width, b with
  | O, _ => Some (0, b)
  | S w, x :: r => match unsigned w r with Some (n, rest) => Some (x + 256 * n, rest) | None => None end
  | S _, [] => None
  end.
Definition signed (width : nat) (b : list Z) : option (Z * list Z) :=
  match unsigned width b with
  | Some (n, rest) => Some (if 2 * n <? 256 ^ Z.of_nat width then n else n - 256 ^ Z.of_nat width, rest)
  | None => None
  end.

(** 16-bit length, then that many code units; fewer if the payload ends, but not
    none.  Which bytes are UTF-16LE: C60. *)
Definition prefixed (b : list Z) : option (list Z * list Z) :=
  match unsigned 2 b with
  | None => None
  | Some (n, r) =>
      if n =? 0 then Some ([], r) else
      match ztake (2 * n) r with
      | [] => None
      | raw => match utf16le_decode raw with Ok t => Some (t, zdrop (2 * n) r) | Raise _ => None end
      end
  end.
Definition hexdigit (n : Z) : Z := if n <? 10 then 48 + n else 87 + n.
Definition hexadecimal (b : list Z) : list Z := flat_map (fun x => [hexdigit (x / 16); hexdigit (x mod 16)]) b.

(** The bits [low] to [high] of a number. *)
Definition bits_of (n low high : Z) : Z := n / 2 ^ low mod 2 ^ (high - low + 1).
(** ** The records

    Names of enumeration values.  Several names may share a number: the first
    one is shown. *)
Definition enum_names : list (string * list (string * Z)) :=
 [("Border.StrokeEnum", [("none", 0); ("solid", 1); ("dashed", 2); ("dotted", 3); ("dash-dot", 4); ("dash-dot-dot", 5); ("long-dash", 6); ("large-dot", 7); ("double", 8); ("double-2", 9); ("double-3", 10); ("triple", 11); ("wave", 12); ("double-wave", 13); ("inset", 14); ("outset", 15); ("groove", 16); ("ridge", 17)]);
  ("Border.WidthEnum", [("0.1mm", 0); ("0.12mm", 1); ("0.15mm", 2); ("0.2mm", 3); ("0.25mm", 4); ("0.3mm", 5); ("0.4mm", 6); ("0.5mm", 7); ("0.6mm", 8); ("0.7mm", 9); ("1.0mm", 10); ("1.5mm", 11); ("2.0mm", 12); ("3.0mm", 13); ("4.0mm", 14); ("5.0mm", 15)]);
  ("BorderLine.LineEnd", [("round", 0); ("flat", 1)]);
  ("BorderLine.ArrowShape", [("none", 0); ("arrow", 1); ("arrow2", 2); ("diamond", 3); ("circle", 4); ("rect", 5); ("diamondfilled", 6); ("disc", 7); ("rectfilled", 8)]);
  ("BorderLine.ArrowSize", [("smallest", 0); ("smaller", 1); ("small", 2); ("abitsmall", 3); ("normal", 4); ("abitlarge", 5); ("large", 6); ("larger", 7); ("largest", 8)]);
  ("FillColorPattern.PatternTypeEnum", [("NONE", 255); ("HORIZONTAL", 0); ("VERTICAL", 1); ("BACKSLASH", 2); ("SLASH", 3); ("GRID", 4); ("CROSS", 5)]);
  ("FillImage.FillImageEnum", [("TILE_ALL", 0); ("TILE_HORIZONTAL_TOP", 1); ("TILE_HORIZONTAL_BOTTOM", 2); ("TILE_VERTICAL_LEFT", 3); ("TILE_VERTICAL_RIGHT", 4); ("RESIZE", 5); ("CENTER", 6); ("CENTER_TOP", 7); ("CENTER_BOTTOM", 8); ("LEFT_MIDDLE", 9); ("LEFT_TOP", 10); ("LEFT_BOTTOM", 11); ("RIGHT_MIDDLE", 12); ("RIGHT_TOP", 13); ("RIGHT_BOTTOM", 14); ("NONE", 15)]);
  ("FillImage.EffectEnum", [("REAL_PIC", 0); ("GRAY_SCALE", 1); ("BLACK_WHITE", 2); ("PATTERN8x8", 3)]);
  ("GradationTypeEnum", [("LINEAR", 1); ("CIRCULAR", 2); ("CONICAL", 3); ("RECTANGULAR", 4)]);
  ("BinData.StorageType", [("LINK", 0); ("EMBEDDING", 1); ("STORAGE", 2)]);
  ("BinData.CompressionType", [("STORAGE_DEFAULT", 0); ("YES", 1); ("NO", 2)]);
  ("BinData.AccessState", [("NEVER", 0); ("OK", 1); ("FAILED", 2); ("FAILED_IGNORED", 3)]);
  ("Panose1.FamilyType", [("any", 0); ("no_fit", 1); ("text_display", 2); ("script", 3); ("decorative", 4); ("pictorial", 5)]);
  ("Panose1.SerifStyle", [("any", 0); ("no_fit", 1); ("cove", 2); ("obtuse_cove", 3); ("square_cove", 4); ("obtuse_square_cove", 5); ("square", 6); ("thin", 7); ("bone", 8); ("exaggerated", 9); ("triangle", 10); ("normal_sans", 11); ("obtuse_sans", 12); ("perp_sans", 13); ("flared", 14); ("rounded", 15)]);
  ("Panose1.Weight", [("any", 0); ("no_fit", 1); ("very_light", 2); ("light", 3); ("thin", 4); ("book", 5); ("medium", 6); ("demi", 7); ("bold", 8); ("heavy", 9); ("black", 10); ("nord", 11)]);
  ("Panose1.Proportion", [("any", 0); ("no_fit", 1); ("old_style", 2); ("modern", 3); ("even_width", 4); ("expanded", 5); ("condensed", 6); ("very_expanded", 7); ("very_condensed", 8); ("monospaced", 9)]);
  ("Panose1.Contrast", [("any", 0); ("no_fit", 1); ("none", 2); ("very_low", 3); ("low", 4); ("medium_low", 5); ("medium", 6); ("medium_high", 7); ("high", 8); ("very_high", 9)]);
  ("Panose1.StrokeVariation", [("any", 0); ("no_fit", 1); ("gradual_diag", 2); ("gradual_tran", 3); ("gradual_vert", 4); ("gradual_horz", 5); ("rapid_vert", 6); ("rapid_horz", 7); ("instant_vert", 8)]);
  ("Panose1.ArmStyle", [("any", 0); ("no_fit", 1); ("straight_horz", 2); ("straight_wedge", 3); ("straight_vert", 4); ("straight_single_serif", 5); ("straight_double_serif", 6); ("bent_horz", 7); ("bent_wedge", 8); ("bent_vert", 9); ("bent_single_serif", 10); ("bent_double_serif", 11)]);
  ("Panose1.Letterform", [("any", 0); ("no_fit", 1); ("normal_contact", 2); ("normal_weighted", 3); ("normal_boxed", 4); ("normal_flattened", 5); ("normal_rounded", 6); ("normal_off_center", 7); ("normal_square", 8); ("oblique_contact", 9); ("oblique_weighted", 10); ("oblique_boxed", 11); ("oblique_flattened", 12); ("oblique_rounded", 13); ("oblique_off_center", 14); ("oblique_square", 15)]);
  ("Panose1.Midline", [("any", 0); ("no_fit", 1); ("standard_trimmed", 2); ("standard_pointed", 3); ("standard_serifed", 4); ("high_trimmed", 5); ("high_pointed", 6); ("high_serifed", 7); ("constant_trimmed", 8); ("constant_pointed", 9); ("constant_serifed", 10); ("low_trimmed", 11); ("low_pointed", 12); ("low_serifed", 13)]);
  ("Panose1.XHeight", [("any", 0); ("no_fit", 1); ("constant_small", 2); ("constant_std", 3); ("constant_large", 4); ("ducking_small", 5); ("ducking_std", 6); ("ducking_large", 7)]);
  ("FaceName.FontFileType", [("UNKNOWN", 0); ("TTF", 1); ("HFT", 2)]);
  ("CharShape.Underline", [("NONE", 0); ("UNDERLINE", 1); ("LINE_THROUGH", 2); ("OVERLINE", 3)]);
  ("CharShape.UnderlineStyle", [("SOLID", 0); ("DASHED", 1); ("DOTTED", 2); ("DASH_DOT", 3); ("DASH_DOT_DOT", 4); ("LONG_DASHED", 5); ("LARGE_DOTTED", 6); ("DOUBLE", 7); ("LOWER_WEIGHTED", 8); ("UPPER_WEIGHTED", 9); ("MIDDLE_WEIGHTED", 10)]);
  ("Tab.Kind", [("LEFT", 0); ("RIGHT", 1); ("CENTER", 2); ("FLOAT", 3)]);
  ("NumberingLevel.Align", [("LEFT", 0); ("CENTER", 1); ("RIGHT", 2); ("UNKNOWN", 3)]);
  ("NumberingLevel.DistanceType", [("RATIO", 0); ("VALUE", 1)]);
  ("BulletAlignEnum", [("LEFT", 0); ("CENTER", 1); ("RIGHT", 2)]);
  ("ParaShape.LineSpacingType", [("RATIO", 0); ("FIXED", 1); ("SPACEONLY", 2); ("MINIMUM", 3)]);
  ("ParaShape.Align", [("BOTH", 0); ("LEFT", 1); ("RIGHT", 2); ("CENTER", 3); ("DISTRIBUTE", 4); ("DISTRIBUTE_SPACE", 5)]);
  ("ParaShape.VAlign", [("FONT", 0); ("TOP", 1); ("CENTER", 2); ("BOTTOM", 3)]);
  ("ParaShape.LineBreakAlphabet", [("WORD", 0); ("HYPHEN", 1); ("CHAR", 2)]);
  ("ParaShape.LineBreakHangul", [("WORD", 0); ("CHAR", 1)]);
  ("ParaShape.HeadShape", [("NONE", 0); ("OUTLINE", 1); ("NUMBER", 2); ("BULLET", 3)]);
  ("Style.Kind", [("PARAGRAPH", 0); ("CHAR", 1)]);
  ("CompatibleDocument.Target", [("DEFAULT", 0); ("HWP2007", 1); ("MSWORD", 2)]);
  ("ListHeader.VAlign", [("TOP", 0); ("MIDDLE", 1); ("BOTTOM", 2)]);
  ("TableCaption.Position", [("LEFT", 0); ("RIGHT", 1); ("TOP", 2); ("BOTTOM", 3)]);
  ("PageDef.Orientation", [("PORTRAIT", 0); ("LANDSCAPE", 1)]);
  ("PageDef.BookBinding", [("LEFT", 0); ("RIGHT", 1); ("TOP", 2); ("BOTTOM", 3)]);
  ("PageBorderFill.RelativeTo", [("BODY", 0); ("PAPER", 1)]);
  ("PageBorderFill.FillArea", [("PAPER", 0); ("PAGE", 1); ("BORDER", 2)]);
  ("TableBody.Split", [("NONE", 0); ("BY_CELL", 1); ("SPLIT", 2)]);
  ("EqEdit.ScriptScope", [("CHAR", 0); ("LINE", 1)]);
  ("ColumnsDef.Kind", [("normal", 0); ("distribute", 1); ("parallel", 2)]);
  ("ColumnsDef.Direction", [("l2r", 0); ("r2l", 1); ("both", 2)]);
  ("CommonControl.Flow", [("FLOAT", 0); ("BLOCK", 1); ("BACK", 2); ("FRONT", 3)]);
  ("CommonControl.TextSide", [("BOTH", 0); ("LEFT", 1); ("RIGHT", 2); ("LARGER", 3)]);
  ("CommonControl.VRelTo", [("PAPER", 0); ("PAGE", 1); ("PARAGRAPH", 2)]);
  ("CommonControl.HRelTo", [("PAPER", 0); ("PAGE", 1); ("COLUMN", 2); ("PARAGRAPH", 3)]);
  ("CommonControl.VAlign", [("TOP", 0); ("MIDDLE", 1); ("BOTTOM", 2)]);
  ("CommonControl.HAlign", [("LEFT", 0); ("CENTER", 1); ("RIGHT", 2); ("INSIDE", 3); ("OUTSIDE", 4)]);
  ("CommonControl.WidthRelTo", [("PAPER", 0); ("PAGE", 1); ("COLUMN", 2); ("PARAGRAPH", 3); ("ABSOLUTE", 4)]);
  ("CommonControl.HeightRelTo", [("PAPER", 0); ("PAGE", 1); ("ABSOLUTE", 2)]);
  ("CommonControl.NumberCategory", [("NONE", 0); ("FIGURE", 1); ("TABLE", 2); ("EQUATION", 3)]);
  ("Dutmal.Position", [("ABOVE", 0); ("BELOW", 1); ("CENTER", 2)]);
  ("Dutmal.Align", [("BOTH", 0); ("LEFT", 1); ("RIGHT", 2); ("CENTER", 3); ("DISTRIBUTE", 4); ("DISTRIBUTE_SPACE", 5)]);
  ("HeaderFooter.Places", [("BOTH_PAGES", 0); ("EVEN_PAGE", 1); ("ODD_PAGE", 2)]);
  ("NumberingControl.Kind", [("PAGE", 0); ("FOOTNOTE", 1); ("ENDNOTE", 2); ("PICTURE", 3); ("TABLE", 4); ("EQUATION", 5); ("UNKNOWN6", 6)]);
  ("PageNumberPosition.Position", [("NONE", 0); ("TOP_LEFT", 1); ("TOP_CENTER", 2); ("TOP_RIGHT", 3); ("BOTTOM_LEFT", 4); ("BOTTOM_CENTER", 5); ("BOTTOM_RIGHT", 6); ("OUTSIDE_TOP", 7); ("OUTSIDE_BOTTOM", 8); ("INSIDE_TOP", 9); ("INSIDE_BOTTOM", 10)]);
  ("PageOddEven.OddEven", [("BOTH_PAGES", 0); ("EVEN_PAGE", 1); ("ODD_PAGE", 2)]) ].

Definition group_view (n : Z) (g : group) : string * (Z * option string) :=
  let '(Group name low high e) := g in
  let x := bits_of n low high in
  (name, (x, match e with None => None | Some e => match look e enum_names with Some items => first_name items x | None => None end end)).

(** [parse version p k env b]: a value described by [k] at the beginning of [b],
    after the members [env], and what is left; [None] if [b] cannot be read.  The
    value is missing for an unknown choice. *)
Section Parse.
  Variable version : list Z.
  Variable p : parent.

  Fixpoint times {X} (n : nat) (item : list Z -> option (option X * list Z)) (b : list Z) : option (list X * list Z) :=
    match n with
    | O => Some ([], b)
    | S n => match item b with
             | Some (x, r) => match times n item r with
                              | Some (l, rest) => Some (match x with Some x => x :: l | None => l end, rest)
                              | None => None
                              end
             | None => None
             end
    end.

  Fixpoint parse (k : kind) (env : list (string * view)) (b : list Z) {struct k} : option (option view * list Z) :=
    let items (n : Z) (k : kind) (b : list Z) :=
      match times (Z.to_nat n) (parse k []) b with Some (l, rest) => Some (Some (Items l), rest) | None => None end in
    match k with
    | Unsigned w => match unsigned w b with Some (n, r) => Some (Some (Int n), r) | None => None end
    | Signed w => match signed w b with Some (n, r) => Some (Some (Int n), r) | None => None end
    | Real => match unsigned 8 b with Some (n, r) => Some (Some (Double n), r) | None => None end
    | Id4 => match b with b0 :: b1 :: b2 :: b3 :: r => Some (Some (Text [b3; b2; b1; b0]), r) | _ => None end
    | Prefixed => match prefixed b with Some (t, r) => Some (Some (Text t), r) | None => None end
    | Hexadecimal n => match b with [] => None | _ => Some (Some (Bytes (hexadecimal (ztake n b))), zdrop n b) end
    | Paragraph => match parse_chunks b with (l, Finished) => Some (Some (Chunks l), []) | _ => None end
    | Bits w groups => match unsigned w b with Some (n, r) => Some (Some (Flags n (map (group_view n) groups)), r) | None => None end
    | Fields fs =>
        let fix fields (fs : list field_spec) (env : list (string * view)) (b : list Z) : option (option view * list Z) :=
          match fs with
          | [] => Some (Some (Members env), b)
          | (name, v, t, k) :: rest =>
              if not_older version v then
                match holds p env t with
                | Some true => match parse k env b with
                               | Some (x, r) => fields rest (match x with Some x => dict_set name x env | None => env end) r
                               | None => None
                               end
                | Some false => fields rest env b
                | None => None
                end
              else fields rest env b
          end in
        fields fs [] b
    | Repeat n k => items (Z.of_nat n) k b
    | Counted w k => match unsigned w b with Some (n, r) => items n k r | None => None end
    | Times c k => match how_often p env c with Some n => items n k b | None => None end
    | Choice m g l =>
        match look_group m g env with
        | None => None
        | Some n =>
            let fix choose (l : list (Z * kind)) : option (option view * list Z) :=
              match l with
              | [] => Some (None, b)
              | (key, k) :: l => if key =? n then parse k env b else choose l
              end in
            choose l
        end
    end.

  (** Several descriptions one after another; later members replace earlier
      ones of the same name. *)
  Fixpoint parse_all (ks : list (list field_spec)) (env : list (string * view)) (b : list Z) : option (list (string * view) * list Z) :=
    match ks with
    | [] => Some (env, b)
    | fs :: ks => match parse (Fields fs) [] b with
                  | Some (Some (Members d), r) =>
                      parse_all ks (fold_left (fun env kv => dict_set (fst kv) (snd kv) env) d env) r
                  | _ => None
                  end
    end.
End Parse.

(** *** Parts of records *)

Definition k_Margin : kind := Fields
  ["left" # i16;
   "right" # i16;
   "top" # i16;
   "bottom" # i16].

Definition k_Coord : kind := Fields
  ["x" # i32;
   "y" # i32].

Definition b_Border_StrokeType : kind := Bits 1
  [enum "stroke_type" 0 4 "Border.StrokeEnum"].

Definition b_Border_Width : kind := Bits 1
  [enum "width" 0 4 "Border.WidthEnum"].

Definition k_Border : kind := Fields
  ["stroke_flags" # b_Border_StrokeType;
   "width_flags" # b_Border_Width;
   "color" # i32].

Definition b_BorderLine_Flags : kind := Bits 4
  [enum "stroke" 0 5 "Border.StrokeEnum"; enum "line_end" 6 9 "BorderLine.LineEnd"; enum "arrow_start" 10 15 "BorderLine.ArrowShape"; enum "arrow_end" 16 21 "BorderLine.ArrowShape"; enum "arrow_start_size" 22 25 "BorderLine.ArrowSize"; enum "arrow_end_size" 26 29 "BorderLine.ArrowSize"; bit "arrow_start_fill" 30; bit "arrow_end_fill" 31].

Definition k_BorderLine : kind := Fields
  ["color" # i32;
   "width" # i32;
   "flags" # b_BorderLine_Flags].

Definition k_FillNone : kind := Fields
  ["size" # u32].

Definition b_FillColorPattern_PatternTypeFlags : kind := Bits 4
  [enum "pattern_type" 0 7 "FillColorPattern.PatternTypeEnum"].

Definition k_FillColorPattern : kind := Fields
  ["background_color" # i32;
   "pattern_color" # i32;
   "pattern_type_flags" # b_FillColorPattern_PatternTypeFlags].

Definition b_FillImage_FillImageFlags : kind := Bits 1
  [enum "fillimage_type" 0 16 "FillImage.FillImageEnum"].

Definition b_FillImage_EffectFlags : kind := Bits 1
  [enum "effect_type" 0 8 "FillImage.EffectEnum"].

Definition k_FillImage : kind := Fields
  ["flags" # b_FillImage_FillImageFlags;
   "brightness" # i8;
   "contrast" # i8;
   "effect" # b_FillImage_EffectFlags;
   "bindata_id" # u16].

Definition k_Coord32 : kind := Fields
  ["x" # u32;
   "y" # u32].

Definition b_GradationTypeFlags : kind := Bits 1
  [enum "gradation_type" 0 8 "GradationTypeEnum"].

Definition k_FillGradation : kind := Fields
  ["type" # b_GradationTypeFlags;
   "shear" # u32;
   "center" # k_Coord32;
   "blur" # u32;
   "colors" # (Counted 4 i32)].

Definition k_BinDataLink : kind := Fields
  ["abspath" # text;
   "relpath" # text].

Definition k_BinDataEmbedding : kind := Fields
  ["storage_id" # u16;
   "ext" # text].

Definition k_BinDataStorage : kind := Fields
  ["storage_id" # u16].

Definition b_BinData_Flags : kind := Bits 2
  [enum "storage" 0 3 "BinData.StorageType"; enum "compression" 4 5 "BinData.CompressionType"; enum "access" 16 17 "BinData.AccessState"].

Definition k_AlternateFont : kind := Fields
  ["kind" # u8;
   "name" # text].

Definition k_Panose1 : kind := Fields
  ["family_type" # u8;
   "serif_style" # u8;
   "weight" # u8;
   "proportion" # u8;
   "contrast" # u8;
   "stroke_variation" # u8;
   "arm_style" # u8;
   "letterform" # u8;
   "midline" # u8;
   "x_height" # u8].

Definition b_FaceName_Flags : kind := Bits 1
  [enum "font_file_type" 0 1 "FaceName.FontFileType"; bit "default" 5; bit "metric" 6; bit "alternate" 7].

Definition b_BorderFill_BorderFlags : kind := Bits 2
  [bit "effect_3d" 0; bit "effect_shadow" 1; bits "slash" 2 4; bits "backslash" 5 6].

Definition b_BorderFill_FillFlags : kind := Bits 4
  [bit "colorpattern" 0; bit "image" 1; bit "gradation" 2].

Definition k_ShadowSpace : kind := Fields
  ["x" # i8;
   "y" # i8].

Definition b_CharShape_Flags : kind := Bits 4
  [bit "italic" 0; bit "bold" 1; enum "underline" 2 3 "CharShape.Underline"; enum "underline_style" 4 7 "CharShape.UnderlineStyle"; bits "outline" 8 10; bits "shadow" 11 13].

Definition b_Tab_Flags : kind := Bits 4
  [enum "kind" 0 7 "Tab.Kind"; bits "fill_type" 8 15].

Definition k_Tab : kind := Fields
  ["pos" # u32;
   "flags" # b_Tab_Flags].

Definition b_TabDef_Flags : kind := Bits 4
  [bit "autotab_left" 0; bit "autotab_right" 1].

Definition b_NumberingLevel_Flags : kind := Bits 4
  [enum "align" 0 1 "NumberingLevel.Align"; bit "auto_width" 2; bit "auto_indent" 3; enum "space_type" 4 4 "NumberingLevel.DistanceType"].

Definition k_NumberingLevel : kind := Fields
  ["flags" # b_NumberingLevel_Flags;
   "width_correction" # i16;
   "space" # u16;
   "charshape_id" # i32;
   "numbering_format" # text].

Definition b_BulletFlags : kind := Bits 4
  [enum "align" 0 1 "BulletAlignEnum"; bit "auto_indent" 3].

Definition b_ParaShape_Flags1 : kind := Bits 4
  [enum "linespacing_type" 0 1 "ParaShape.LineSpacingType"; enum "align" 2 4 "ParaShape.Align"; enum "linebreak_alphabet" 5 6 "ParaShape.LineBreakAlphabet"; enum "linebreak_hangul" 7 7 "ParaShape.LineBreakHangul"; bit "use_paper_grid" 8; bits "minimum_space" 9 15; bit "protect_single_line" 16; bit "with_next_paragraph" 17; bit "protect" 18; bit "start_new_page" 19; enum "valign" 20 21 "ParaShape.VAlign"; bit "lineheight_along_fontsize" 22; enum "head_shape" 23 24 "ParaShape.HeadShape"; bits "level" 25 27; bit "linked_border" 28; bit "ignore_margin" 29; bit "tail_shape" 30].

Definition b_ParaShape_Flags2 : kind := Bits 4
  [bits "in_single_line" 0 1; bits "reserved" 2 3; bit "autospace_alphabet" 4; bit "autospace_number" 5].

Definition b_ParaShape_Flags3 : kind := Bits 4
  [enum "linespacing_type3" 0 4 "ParaShape.LineSpacingType"].

Definition b_Style_Flags : kind := Bits 1
  [enum "kind" 0 1 "Style.Kind"].

Definition b_CompatibleDocument_Flags : kind := Bits 4
  [bits "target" 0 1].

Definition b_Paragraph_SplitFlags : kind := Bits 1
  [bit "new_section" 0; bit "new_columnsdef" 1; bit "new_page" 2; bit "new_column" 3].

Definition b_Paragraph_ControlMask : kind := Bits 4
  [bit "unknown1" 2; bit "control" 11; bit "new_number" 21].

Definition b_Paragraph_Flags : kind := Bits 4
  [bit "unknown" 31; bits "chars" 0 30].

Definition b_LineSeg_Flags : kind := Bits 4
  [bit "line_head" 17; bit "line_tail" 18; bit "indented" 20; bit "bullet" 21].

Definition k_LineSeg : kind := Fields
  ["chpos" # i32;
   "y" # i32;
   "height" # i32;
   "height_text" # i32;
   "height_baseline" # i32;
   "space_below" # i32;
   "x" # i32;
   "width" # i32;
   "lineseg_flags" # b_LineSeg_Flags].

Definition b_RangeTag_Tag : kind := Bits 4
  [bits "data" 0 23; bits "kind" 24 31].

Definition k_RangeTag : kind := Fields
  ["start" # u32;
   "end" # u32;
   "tag" # b_RangeTag_Tag].

Definition b_ListHeader_Flags : kind := Bits 4
  [bits "textdirection" 0 2; bits "linebreak" 3 4; enum "valign" 5 6 "ListHeader.VAlign"].

Definition b_TableCaption_Flags : kind := Bits 4
  [enum "position" 0 1 "TableCaption.Position"; bit "expand_to_margin" 2].

Definition b_PageDef_Flags : kind := Bits 4
  [enum "orientation" 0 0 "PageDef.Orientation"; enum "bookbinding" 1 2 "PageDef.BookBinding"].

Definition b_FootnoteShape_Flags : kind := Bits 4
  [].

Definition b_PageBorderFill_Flags : kind := Bits 4
  [enum "relative_to" 0 0 "PageBorderFill.RelativeTo"; bit "include_header" 1; bit "include_footer" 2; enum "fill" 3 4 "PageBorderFill.FillArea"].

Definition k_Matrix : kind := Fields
  ["a" # Real;
   "c" # Real;
   "e" # Real;
   "b" # Real;
   "d" # Real;
   "f" # Real].

Definition k_ScaleRotationMatrix : kind := Fields
  ["scaler" # k_Matrix;
   "rotator" # k_Matrix].

Definition b_ShapeComponent_FillFlags : kind := Bits 2
  [bit "fill_colorpattern" 8; bit "fill_image" 9; bit "fill_gradation" 10].

Definition b_ShapeComponent_Flags : kind := Bits 4
  [bit "flip" 0].

Definition k_ZoneInfo : kind := Fields
  ["starting_column" # u16;
   "starting_row" # u16;
   "end_column" # u16;
   "end_row" # u16;
   "borderfill_id" # u16].

Definition b_TableBody_Flags : kind := Bits 4
  [enum "split_page" 0 1 "TableBody.Split"; bit "repeat_header" 2].

Definition b_ShapeEllipse_Flags : kind := Bits 4
  [bit "arc_recalc_required" 0; bit "arc" 1; bits "arc_kind" 2 9].

Definition b_ShapeOLE_Flags : kind := Bits 4
  [bits "dvaspect" 0 7; bit "moniker" 8; bits "baseline" 9 15].

Definition k_PictureInfo : kind := Fields
  ["brightness" # i8;
   "contrast" # i8;
   "effect" # u8;
   "bindata_id" # u16].

Definition b_PictureEffect_Flags : kind := Bits 4
  [].

Definition k_PictureEffect : kind := Fields
  ["flags" # b_PictureEffect_Flags].

Definition k_ImageRect : kind := Fields
  ["p0" # k_Coord;
   "p1" # k_Coord;
   "p2" # k_Coord;
   "p3" # k_Coord].

Definition k_ImageClip : kind := Fields
  ["left" # i32;
   "top" # i32;
   "right" # i32;
   "bottom" # i32].

Definition b_EqEdit_Flags : kind := Bits 4
  [enum "script_scope" 0 0 "EqEdit.ScriptScope"].

Definition k_Column0 : kind := Fields
  ["width" # u16].

Definition k_Column : kind := Fields
  ["spacing" # u16;
   "width" # u16].

Definition b_ColumnsDef_Flags : kind := Bits 2
  [enum "kind" 0 1 "ColumnsDef.Kind"; bits "count" 2 9; enum "direction" 10 11 "ColumnsDef.Direction"; bit "same_widths" 12].

Definition b_CommonControl_CommonControlFlags : kind := Bits 4
  [bit "inline" 0; bit "affect_line_spacing" 2; enum "vrelto" 3 4 "CommonControl.VRelTo"; enum "valign" 5 7 "CommonControl.VAlign"; enum "hrelto" 8 9 "CommonControl.HRelTo"; enum "halign" 10 12 "CommonControl.HAlign"; bit "restrict_in_page" 13; bit "overlap_others" 14; enum "width_relto" 15 17 "CommonControl.WidthRelTo"; enum "height_relto" 18 19 "CommonControl.HeightRelTo"; bit "protect_size_when_vrelto_paragraph" 20; enum "flow" 21 23 "CommonControl.Flow"; enum "text_side" 24 25 "CommonControl.TextSide"; enum "number_category" 26 27 "CommonControl.NumberCategory"].

Definition b_Field_Flags : kind := Bits 4
  [bit "editableInReadOnly" 0; bits "visitedType" 11 14; bit "modified" 15].

Definition b_HeaderFooter_Flags : kind := Bits 4
  [enum "places" 0 1 "HeaderFooter.Places"].

Definition b_NumberingControl_Flags : kind := Bits 4
  [enum "kind" 0 3 "NumberingControl.Kind"; bits "footnoteshape" 4 11; bit "superscript" 12].

Definition b_PageHide_Flags : kind := Bits 4
  [bit "header" 0; bit "footer" 1; bit "basepage" 2; bit "pageborder" 3; bit "pagefill" 4; bit "pagenumber" 5].

Definition b_PageNumberPosition_Flags : kind := Bits 4
  [bits "shape" 0 7; enum "position" 8 11 "PageNumberPosition.Position"].

Definition b_PageOddEven_Flags : kind := Bits 4
  [enum "pages" 0 1 "PageOddEven.OddEven"].

Definition b_SectionDef_Flags : kind := Bits 4
  [bit "hide_header" 0; bit "hide_footer" 1; bit "hide_page" 2; bit "hide_border" 3; bit "hide_background" 4; bit "hide_pagenumber" 5; bit "show_border_on_first_page_only" 8; bit "show_background_on_first_page_only" 9; bits "text_direction" 16 18; bit "hide_blank_line" 19; bits "pagenum_on_split_section" 20 21; bit "squared_manuscript_paper" 22].

(** *** Records, by type.  The types that refine controls, list headers and
    control data: what follows the general part. *)
Definition record_fields (class : string) : list field_spec :=
  match find (fun e => String.eqb (fst e) class) [
   ("DocumentProperties", [
     "section_count" # u16;
     "page_startnum" # u16;
     "footnote_startnum" # u16;
     "endnote_startnum" # u16;
     "picture_startnum" # u16;
     "table_startnum" # u16;
     "math_startnum" # u16;
     "list_id" # u32;
     "paragraph_id" # u32;
     "character_unit_loc_in_paragraph" # u32]);
   ("IdMappings", [
     "bindata" # u32;
     "ko_fonts" # u32;
     "en_fonts" # u32;
     "cn_fonts" # u32;
     "jp_fonts" # u32;
     "other_fonts" # u32;
     "symbol_fonts" # u32;
     "user_fonts" # u32;
     "borderfills" # u32;
     "charshapes" # u32;
     "tabdefs" # u32;
     "numberings" # u32;
     "bullets" # u32;
     "parashapes" # u32;
     "styles" # u32;
     from (5, 0, 1, 7) ("memoshapes" # u32)]);
   ("BinData", [
     "flags" # b_BinData_Flags;
     "bindata" # (Choice "flags" "storage" [(0, k_BinDataLink); (1, k_BinDataEmbedding); (2, k_BinDataStorage)])]);
   ("FaceName", [
     "flags" # b_FaceName_Flags;
     "name" # text;
     ifso (IsSet "flags" "alternate") ("alternate_font" # k_AlternateFont);
     ifso (IsSet "flags" "metric") ("panose1" # k_Panose1);
     ifso (IsSet "flags" "default") ("default_font" # text)]);
   ("BorderFill", [
     "borderflags" # b_BorderFill_BorderFlags;
     "left" # k_Border;
     "right" # k_Border;
     "top" # k_Border;
     "bottom" # k_Border;
     "diagonal" # k_Border;
     "fillflags" # b_BorderFill_FillFlags;
     ifso (IsSet "fillflags" "colorpattern") ("fill_colorpattern" # k_FillColorPattern);
     ifso (IsSet "fillflags" "gradation") ("fill_gradation" # k_FillGradation);
     ifso (IsSet "fillflags" "image") ("fill_image" # k_FillImage);
     ifso (IsSet "fillflags" "gradation") ("shape" # u32);
     ifso (IsSet "fillflags" "gradation") ("blur_center" # u8)]);
   ("CharShape", [
     "font_face" # (by_language u16);
     "letter_width_expansion" # (by_language u8);
     "letter_spacing" # (by_language i8);
     "relative_size" # (by_language i8);
     "position" # (by_language i8);
     "basesize" # i32;
     "charshapeflags" # b_CharShape_Flags;
     "shadow_space" # k_ShadowSpace;
     "text_color" # i32;
     "underline_color" # i32;
     "shade_color" # i32;
     "shadow_color" # i32]);
   ("TabDef", [
     "flags" # b_TabDef_Flags;
     "tabs" # (Counted 4 k_Tab)]);
   ("Numbering", [
     "levels" # (Repeat 7 k_NumberingLevel);
     "starting_number" # u16;
     from (5, 0, 3, 0) ("unknown" # (Repeat 7 u32))]);
   ("Bullet", [
     "flags" # b_BulletFlags;
     "width" # i16;
     "space" # u16;
     "charshape_id" # i32;
     "char" # u16]);
   ("ParaShape", [
     "parashapeflags" # b_ParaShape_Flags1;
     "doubled_margin_left" # i32;
     "doubled_margin_right" # i32;
     "indent" # i32;
     "doubled_margin_top" # i32;
     "doubled_margin_bottom" # i32;
     "linespacing" # i32;
     "tabdef_id" # u16;
     "numbering_bullet_id" # u16;
     "borderfill_id" # u16;
     "border_left" # i16;
     "border_right" # i16;
     "border_top" # i16;
     "border_bottom" # i16;
     from (5, 0, 1, 7) ("flags2" # b_ParaShape_Flags2)]);
   ("Style", [
     "local_name" # text;
     "name" # text;
     "flags" # b_Style_Flags;
     "next_style_id" # u8;
     "lang_id" # i16;
     "parashape_id" # u16;
     "charshape_id" # u16;
     "unknown" # u16]);
   ("CompatibleDocument", [
     "flags" # b_CompatibleDocument_Flags]);
   ("LayoutCompatibility", [
     "char" # u32;
     "paragraph" # u32;
     "section" # u32;
     "object" # u32;
     "field" # u32]);
   ("Paragraph", [
     "text" # b_Paragraph_Flags;
     "controlmask" # b_Paragraph_ControlMask;
     "parashape_id" # u16;
     "style_id" # u8;
     "split" # b_Paragraph_SplitFlags;
     "charshapes" # u16;
     "rangetags" # u16;
     "linesegs" # u16;
     "instance_id" # u32]);
   ("ParaText", [
     "chunks" # chunks]);
   ("ParaCharShape", [
     "charshapes" # (Times (ParentMember "charshapes") (Repeat 2 u32))]);
   ("ParaLineSeg", [
     "linesegs" # (Times (ParentMember "linesegs") k_LineSeg)]);
   ("ParaRangeTag", [
     "range_tags" # (Times (ParentMember "rangetags") k_RangeTag)]);
   ("ListHeader", [
     "paragraphs" # u16;
     "unknown1" # u16;
     "listflags" # b_ListHeader_Flags]);
   ("TableCaption", [
     "flags" # b_TableCaption_Flags;
     "width" # u32;
     "separation" # i16;
     "max_width" # u32]);
   ("TableCell", [
     "col" # u16;
     "row" # u16;
     "colspan" # u16;
     "rowspan" # u16;
     "width" # i32;
     "height" # i32;
     "padding" # k_Margin;
     "borderfill_id" # u16;
     "unknown_width" # i32]);
   ("TextboxParagraphList", [
     "padding" # k_Margin;
     "maxwidth" # u32]);
   ("HeaderFooterParagraphList", [
     "width" # u32;
     "height" # u32;
     "textrefsbitmap" # u8;
     "numberrefsbitmap" # u8]);
   ("PageDef", [
     "width" # u32;
     "height" # u32;
     "left_offset" # u32;
     "right_offset" # u32;
     "top_offset" # u32;
     "bottom_offset" # u32;
     "header_offset" # u32;
     "footer_offset" # u32;
     "bookbinding_offset" # u32;
     "attr" # b_PageDef_Flags]);
   ("FootnoteShape", [
     "flags" # b_FootnoteShape_Flags;
     "usersymbol" # u16;
     "prefix" # u16;
     "suffix" # u16;
     "starting_number" # u16;
     "splitter_length" # i16;
     "splitter_unknown" # i16;
     "splitter_margin_top" # i16;
     "splitter_margin_bottom" # i16;
     "notes_spacing" # i16;
     "splitter_stroke_type" # b_Border_StrokeType;
     "splitter_width" # b_Border_Width;
     "splitter_color" # i32]);
   ("PageBorderFill", [
     "flags" # b_PageBorderFill_Flags;
     "margin" # k_Margin;
     "borderfill_id" # u16]);
   ("ShapeComponent", [
     ifso (ParentIs "GShapeObjectControl") ("chid0" # Id4);
     "chid" # Id4;
     "x_in_group" # i32;
     "y_in_group" # i32;
     "level_in_group" # u16;
     "local_version" # u16;
     "initial_width" # i32;
     "initial_height" # i32;
     "width" # i32;
     "height" # i32;
     "flags" # b_ShapeComponent_Flags;
     "angle" # u16;
     "rotation_center" # k_Coord;
     "scalerotations_count" # u16;
     "translation" # k_Matrix;
     "scalerotations" # (Times (Member "scalerotations_count") k_ScaleRotationMatrix);
     ifso (IdIs "$con") ("controls" # (Counted 2 Id4));
     ifso (IdIs "$rec") ("border" # k_BorderLine);
     ifso (IdIs "$rec") ("fill_flags" # b_ShapeComponent_FillFlags);
     ifso (IdIs "$rec") ("unknown" # u16);
     ifso (IdIs "$rec") ("unknown1" # u8);
     ifso (Both (IdIs "$rec") (IsSet "fill_flags" "fill_colorpattern")) ("fill_colorpattern" # k_FillColorPattern);
     ifso (Both (IdIs "$rec") (IsSet "fill_flags" "fill_gradation")) ("fill_gradation" # k_FillGradation);
     ifso (Both (IdIs "$rec") (IsSet "fill_flags" "fill_image")) ("fill_image" # k_FillImage);
     ifso (IdIs "$rec") ("fill_shape" # u32);
     ifso (Both (IdIs "$rec") (IsSet "fill_flags" "fill_gradation")) ("fill_blur_center" # u8);
     from (5, 0, 2, 4) (ifso (IdIs "$rec") ("unknown2" # (hexbytes 5)));
     from (5, 0, 2, 4) (ifso (IdIs "$rec") ("unknown3" # (hexbytes 16)));
     ifso (IdIs "$lin") ("line" # k_BorderLine)]);
   ("TableBody", [
     "flags" # b_TableBody_Flags;
     "rows" # u16;
     "cols" # u16;
     "cellspacing" # i16;
     "padding" # k_Margin;
     "rowcols" # (Times (Member "rows") u16);
     "borderfill_id" # u16;
     from (5, 0, 0, 7) ("validZones" # (Counted 2 k_ZoneInfo))]);
   ("ShapeLine", [
     "p0" # k_Coord;
     "p1" # k_Coord;
     "attr" # u16]);
   ("ShapeRectangle", [
     "round" # u8;
     "p0" # k_Coord;
     "p1" # k_Coord;
     "p2" # k_Coord;
     "p3" # k_Coord]);
   ("ShapeEllipse", [
     "flags" # b_ShapeEllipse_Flags;
     "center" # k_Coord;
     "axis1" # k_Coord;
     "axis2" # k_Coord;
     "start1" # k_Coord;
     "end1" # k_Coord;
     "start2" # k_Coord;
     "end2" # k_Coord]);
   ("ShapeArc", [
     "center" # k_Coord;
     "axis1" # k_Coord;
     "axis2" # k_Coord]);
   ("ShapePolygon", [
     "points" # (Counted 2 k_Coord)]);
   ("ShapeCurve", [
     "points" # (Counted 2 k_Coord)]);
   ("ShapeOLE", [
     "flags" # b_ShapeOLE_Flags;
     "extent_x" # i32;
     "extent_y" # i32;
     "storage_id" # u16;
     "border" # k_BorderLine]);
   ("ShapePicture", [
     "border" # k_BorderLine;
     "rect" # k_ImageRect;
     "clip" # k_ImageClip;
     "padding" # k_Margin;
     "picture" # k_PictureInfo;
     from (5, 0, 2, 2) ("border_transparency" # u8);
     from (5, 0, 2, 5) ("instance_id" # u32);
     from (5, 0, 3, 4) ("picture_effect" # k_PictureEffect)]);
   ("EqEdit", [
     ]);
   ("Control", [
     "chid" # Id4]);
   ("BookmarkControl", [
     ]);
   ("BookmarkControlData", [
     "unknown1" # u32;
     "unknown2" # u32;
     "unknown3" # u16;
     "name" # text]);
   ("ColumnsDef", [
     "flags" # b_ColumnsDef_Flags;
     "spacing" # i16;
     ifso (IsClear "flags" "same_widths") ("column0" # k_Column0);
     ifso (IsClear "flags" "same_widths") ("columns" # (Times (GroupLessOne "flags" "count") k_Column));
     "attr2" # u16;
     "splitter" # k_Border]);
   ("CommonControl", [
     "flags" # b_CommonControl_CommonControlFlags;
     "y" # i32;
     "x" # i32;
     "width" # u32;
     "height" # u32;
     "z_order" # i16;
     "unknown1" # i16;
     "margin" # k_Margin;
     "instance_id" # u32;
     from (5, 0, 0, 5) ("unknown2" # i16);
     from (5, 0, 0, 5) ("description" # text)]);
   ("Dutmal", [
     "maintext" # text;
     "subtext" # text;
     "position-flags" # (Bits 4 [enum "position" 0 31 "Dutmal.Position"]);
     "fsizeratio" # u32;
     "option" # u32;
     "stylenumber" # u32;
     "align-flags" # (Bits 4 [enum "align" 0 31 "Dutmal.Align"])]);
   ("Field", [
     "flags" # b_Field_Flags;
     "extra_attr" # u8;
     "command" # text;
     "id" # u32]);
   ("HeaderFooter", [
     "flags" # b_HeaderFooter_Flags]);
   ("HiddenComment", [
     ]);
   ("IndexMarker", [
     "keyword1" # text;
     "keyword2" # text;
     "dummy" # u16]);
   ("Note", [
     "number" # u32;
     "unknown0" # u32;
     "unknown1" # u32;
     from (5, 0, 3, 0) ("unknown2" # u16);
     from (5, 0, 3, 0) ("unknown3" # u16)]);
   ("NumberingControl", [
     "flags" # b_NumberingControl_Flags;
     "number" # u16]);
   ("AutoNumbering", [
     "usersymbol" # u16;
     "prefix" # u16;
     "suffix" # u16]);
   ("PageHide", [
     "flags" # b_PageHide_Flags]);
   ("PageNumberPosition", [
     "flags" # b_PageNumberPosition_Flags;
     "usersymbol" # u16;
     "prefix" # u16;
     "suffix" # u16;
     "dash" # u16]);
   ("PageOddEven", [
     "flags" # b_PageOddEven_Flags]);
   ("SectionDef", [
     "flags" # b_SectionDef_Flags;
     "columnspacing" # i16;
     "grid_vertical" # i16;
     "grid_horizontal" # i16;
     "defaultTabStops" # u32;
     "numbering_shape_id" # u16;
     "starting_pagenum" # u16;
     "starting_picturenum" # u16;
     "starting_tablenum" # u16;
     "starting_equationnum" # u16;
     from (5, 0, 1, 7) ("unknown1" # u32);
     from (5, 0, 1, 7) ("unknown2" # u32)]);
   ("SectionDefData", [
     "unknown" # (hexbytes 280)]);
   ("TCPSControl", [
     "textlength" # text])
  ] with Some e => snd e | None => [] end.

(** ** Whole records *)

(** What a record of a type consists of: the members of its tag, then, if the
    tag does not determine the type, those of the type. *)
Definition record_parts (tagid : Z) (type : string) : list (list field_spec) :=
  map record_fields (type_of_tag tagid :: (if String.eqb type (type_of_tag tagid) then [] else refinement_layouts type)).

(** The nearest earlier record one level up, as far as layouts look at it. *)
Inductive nearest (k : Z) (done : list (record * model)) : parent -> Prop :=
| nr_record : forall before r m after,
    last_such (fun rm => r_level (fst rm) = k - 1) done before (r, m) after ->
    nearest k done (Parent (Some (m_type m)) (Some (views (m_content m))))
| nr_none : Forall (fun rm => r_level (fst rm) <> k - 1) done -> nearest k done (Parent None None).

Definition version_ok (v : list Z) : Prop := List.length v = 4%nat /\ all_bytes v.
