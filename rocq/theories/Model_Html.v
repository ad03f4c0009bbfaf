(** Model of the style sheets of hwp5html: xsl/hwp5html.xsl (the page),
    xsl/hwp5css.xsl and xsl/hwp5css-common.xsl (styles.css), and of what an XSLT
    1.0 processor does with them (external: lxml or xsltproc).

    Simplifications: numbers are integers (the attributes used are); lengths,
    which are computed in floating point, and [style] attributes are given by
    functions; rules and declarations are lists, comments are left out.  Of
    several attributes [src] for one picture all are listed. *)
From Coq Require Import ZArith String List Bool.
From Verif Require Import Base Model_Text Model_XmlText Model_Plaintext.
Import ListNotations.
Open Scope string_scope.
Open Scope list_scope.
Open Scope Z_scope.

(** ** XPath *)

Fixpoint lookup {V} (s : list Z) (l : list (list Z * V)) : option V :=
  match l with [] => None | (k, v) :: r => if list_eq_dec Z.eq_dec s k then Some v else lookup s r end.
(** [@s] *)
Definition attr (s : string) (x : xnode) : option (list Z) :=
  match x with Element _ attrs _ => lookup (zs s) attrs | Characters _ => None end.
(** [value-of select="@s"] *)
Definition value_of (s : string) (x : xnode) : list Z := match attr s x with Some v => v | None => [] end.
(** [@s = 'v'] *)
Definition attr_is (s v : string) (x : xnode) : bool := match attr s x with Some a => name_is v a | None => false end.

Fixpoint natural (acc : Z) (t : list Z) : option Z :=
  match t with
  | [] => Some acc
  | c :: r => if (48 <=? c) && (c <=? 57) then natural (acc * 10 + (c - 48)) r else None
  end.
(** [number(t)], None for NaN *)
Definition number (t : list Z) : option Z :=
  match t with
  | [] => None
  | [45] => None
  | 45 :: r => option_map Z.opp (natural 0 r)
  | _ => natural 0 t
  end.
Definition number_of (s : string) (x : xnode) : option Z := match attr s x with Some t => number t | None => None end.
(** [@s = n], [@s < n], [@s > n] *)
Definition compares (test : Z -> bool) (s : string) (x : xnode) : bool := match number_of s x with Some n => test n | None => false end.

(** [s[n]] among the children of a node *)
Definition nth_child (s : string) (n : option Z) (kids : list xnode) : list xnode :=
  match n with
  | Some k => if 1 <=? k then firstn 1 (skipn (Z.to_nat (k - 1)) (filter (named_node s) kids)) else []
  | None => []
  end.
(** [descendant-or-self::node()], each with the nodes it is in, innermost first *)
Fixpoint below (up : list xnode) (x : xnode) : list (list xnode) :=
  (x :: up) :: match x with Element _ _ kids => flat_map (below (x :: up)) kids | Characters _ => [] end.
Definition all_nodes (document : list xnode) : list (list xnode) := flat_map (below []) document.
Definition self (path : list xnode) : xnode := match path with x :: _ => x | [] => Characters [] end.
(** [//s[n]] *)
Definition anywhere (s : string) (n : option Z) (document : list xnode) : list xnode :=
  nth_child s n document ++ flat_map (fun p => nth_child s n (kids_of_node (self p))) (all_nodes document).
Definition plus_one (n : option Z) : option Z := option_map (fun k => k + 1) n.

(** [translate(t, ' ', '-')] *)
Definition dashes (t : list Z) : list Z := map (fun c => if c =? 32 then 45 else c) t.
Definition value_of_first (s : string) (l : list xnode) : list Z := match l with x :: _ => value_of s x | [] => [] end.
(** [$nodes/@s = @s'] of [x] *)
Definition same_attr (s : string) (nodes : list xnode) (x : xnode) : bool :=
  existsb (fun y => match attr s y, attr s x with Some a, Some b => if list_eq_dec Z.eq_dec a b then true else false | _, _ => false end) nodes.
(** [value-of] of nothing makes no text node. *)
Definition characters (t : list Z) : list xnode := match t with [] => [] | _ => [Characters t] end.
Fixpoint starts_with (p t : list Z) : bool :=
  match p, t with [], _ => true | a :: p', b :: t' => (a =? b) && starts_with p' t' | _, [] => false end.
(** [contains(t, p)] *)
Fixpoint contains (t p : list Z) : bool :=
  starts_with p t || match t with [] => false | _ :: r => contains r p end.

(** ** Rules *)

(** A compound selector: element name, classes, and pseudo-element or
    pseudo-class. *)
Record compound : Type := mkCompound { c_tag : option (list Z); c_classes : list (list Z); c_pseudo : option (list Z) }.
(** [a], [a > b], [a b] *)
Inductive selector : Type := Plain (a : compound) | Child (a b : compound) | Inside (a b : compound).
Definition declaration : Type := (list Z * list Z)%type.
Record rule : Type := mkRule { r_selector : selector; r_declarations : list declaration }.

Definition tag (s : string) : compound := mkCompound (Some (zs s)) [] None.
Definition class (c : list Z) : compound := mkCompound None [c] None.
Definition tag_class (s : string) (c : list Z) : compound := mkCompound (Some (zs s)) [c] None.
Definition and_class (c : list Z) (a : compound) : compound := mkCompound (c_tag a) (c_classes a ++ [c]) (c_pseudo a).
Definition with_pseudo (p : string) (a : compound) : compound := mkCompound (c_tag a) (c_classes a) (Some (zs p)).
(** The selector made longer at its end. *)
Definition longer (f : compound -> compound) (s : selector) : selector :=
  match s with Plain a => Plain (f a) | Child a b => Child a (f b) | Inside a b => Inside a (f b) end.

Section Sheets.
  (** A length or number with its unit: hwpunit-to-mm, hwpunit-to-pt and the like
      (hwp5css-common.xsl 977-987), for a property of a node. *)
  Variable measure : string -> xnode -> list Z.
  (** A [style] attribute, for a node and the nodes it is in. *)
  Variable style : list xnode -> list Z.
  Variable document : list xnode.

  Definition para_shape (x : xnode) : list xnode := anywhere "ParaShape" (plus_one (number_of "parashape-id" x)) document.
  Definition char_shape (x : xnode) : list xnode := anywhere "CharShape" (plus_one (number_of "charshape-id" x)) document.
  Definition style_at (styleid : option Z) : list xnode := anywhere "Style" (plus_one styleid) document.

  Definition when (b : bool) (l : list declaration) : list declaration := if b then l else [].
  Definition says (p v : string) : declaration := (zs p, zs v).
  Definition gives (p : string) (v : list Z) : declaration := (zs p, v).

  (** hwp5css-common.xsl 848-861 *)
  Definition align_value (x : xnode) : list Z :=
    if attr_is "align" "center" x then zs "center"
    else if attr_is "align" "left" x then zs "left"
    else if attr_is "align" "right" x then zs "right"
    else if attr_is "align" "both" x then zs "justify"
    else zs "justify".
  (** hwp5css-common.xsl 93-127, 848-884 *)
  Definition para_declarations (x : xnode) : list declaration :=
    [gives "margin" (measure "margin" x); gives "text-align" (align_value x); gives "text-indent" (measure "text-indent" x)] ++
    when (compares (fun n => n <? 0) "indent" x) [gives "padding-left" (measure "padding-left" x)] ++
    when (attr_is "linespacing-type" "ratio" x) [gives "min-height" (measure "min-height" x)].
  (** 129-140 *)
  Definition line_declarations (x : xnode) : list declaration :=
    when (attr_is "linespacing-type" "ratio" x) [gives "line-height" (measure "line-height" x)].

  (** 961-975 *)
  Definition line_style (x : xnode) : list Z :=
    if attr_is "underline-style" "solid" x then zs "solid"
    else if attr_is "underline-style" "dashed" x then zs "dashed"
    else if attr_is "underline-style" "dotted" x then zs "dotted"
    else if attr_is "underline-style" "dash_dot" x then zs "dashed"
    else if attr_is "underline-style" "dash_dot_dot" x then zs "dashed"
    else if attr_is "underline-style" "long_dashed" x then zs "dashed"
    else if attr_is "underline-style" "large_dotted" x then zs "dotted"
    else if attr_is "underline-style" "double" x then zs "double"
    else if attr_is "underline-style" "lower_weighted" x then zs "double"
    else if attr_is "underline-style" "upper_weighted" x then zs "double"
    else if attr_is "underline-style" "middle_weighted" x then zs "double"
    else [].
  (** 886-959 *)
  Definition decoration (x : xnode) : list declaration :=
    let line v :=
      [says "text-decoration" v;
       gives "text-decoration-color" (value_of "underline-color" x);
       gives "-moz-text-decoration-color" (value_of "underline-color" x);
       gives "-webkit-text-decoration-color" (value_of "underline-color" x);
       gives "text-decoration-style" (line_style x);
       gives "-moz-text-decoration-style" (line_style x);
       gives "-webkit-text-decoration-style" (line_style x)] in
    if attr_is "underline" "underline" x then line "underline"
    else if attr_is "underline" "overline" x then line "overline"
    else if attr_is "underline" "line_through" x then line "line-through"
    else [].
  (** 283-304 *)
  Definition char_declarations (x : xnode) : list declaration :=
    [gives "color" (value_of "text-color" x)] ++
    when (compares (Z.eqb 1) "italic" x) [says "font-style" "italic"] ++
    when (compares (Z.eqb 1) "bold" x) [says "font-weight" "bold"] ++
    decoration x.

  (** 356-369 *)
  Definition panose_family (x : xnode) : list Z :=
    let ft n := compares (Z.eqb n) "family-type" x in
    if ft 2 && compares (Z.eqb 9) "proportion" x then zs ", monospace"
    else if ft 2 && compares (fun n => 10 <? n) "serif-style" x then zs ", sans-serif"
    else if ft 2 && compares (fun n => n <? 11) "serif-style" x then zs ", serif"
    else if ft 3 then zs ", cursive"
    else if ft 4 then zs ", fantasy"
    else [].
  (** 344-354 *)
  Definition generic_family (x : xnode) : list Z :=
    let name := value_of "name" x in
    if contains name [0xBC14; 0xD0D5] then zs ", serif"
    else if contains name [0xB3CB; 0xC6C0] then zs ", sans-serif"
    else if contains name [0xBA85; 0xC870] then zs ", serif"
    else if contains name [0xACE0; 0xB515] then zs ", sans-serif"
    else flat_map panose_family (filter (named_node "Panose1") (kids_of_node x)).
  (** 338-342 *)
  Definition quoted_name (x : xnode) : list Z := [34] ++ value_of "name" x ++ [34].

  (** 5-11: where the fonts of each language begin.  None: NaN *)
  Definition id_mappings : list xnode := filter (named_node "IdMappings") (map self (all_nodes document)).
  Definition font_count (s : string) : option Z := match id_mappings with x :: _ => number_of s x | [] => None end.
  Definition plus (a b : option Z) : option Z := match a, b with Some x, Some y => Some (x + y) | _, _ => None end.
  Definition base_ko : option Z := Some 1.
  Definition base_en : option Z := plus base_ko (font_count "ko-fonts").
  Definition base_cn : option Z := plus base_en (font_count "en-fonts").
  Definition base_jp : option Z := plus base_cn (font_count "cn-fonts").
  Definition base_other : option Z := plus base_jp (font_count "jp-fonts").
  Definition base_symbol : option Z := plus base_other (font_count "other-fonts").
  Definition base_user : option Z := plus base_symbol (font_count "symbol-fonts").
  (** [FontFace/@lang] *)
  Definition face_index (lang : string) (x : xnode) : option Z :=
    match filter (named_node "FontFace") (kids_of_node x) with f :: _ => number_of lang f | [] => None end.
  (** 306-336 *)
  Definition lang_declarations (lang : string) (base : option Z) (x : xnode) : list declaration :=
    let faces := anywhere "FaceName" (plus base (face_index lang x)) document in
    [gives "font-family" (flat_map quoted_name faces ++ flat_map generic_family faces);
     gives "font-size" (measure ("font-size-" ++ lang) x)].
  Definition languages : list (string * option Z) :=
    [("ko", base_ko); ("en", base_en); ("cn", base_cn); ("jp", base_jp); ("other", base_other); ("symbol", base_symbol); ("user", base_user)].
  (** 228-281 *)
  Definition char_rules (s : selector) (x : xnode) : list rule :=
    mkRule s (char_declarations x) ::
    map (fun l => mkRule (longer (and_class (zs "lang-" ++ zs (fst l))) s) (lang_declarations (fst l) (snd l) x)) languages.

  (** 24-66 *)
  Definition style_rules (x : xnode) : list rule :=
    let paragraph := class (dashes (value_of "name" x)) in
    let spans := Child paragraph (tag "span") in
    (if attr_is "kind" "paragraph" x then
       [mkRule (Plain paragraph) (flat_map para_declarations (para_shape x)); mkRule spans (flat_map line_declarations (para_shape x))]
     else []) ++
    flat_map (char_rules spans) (char_shape x).
  (** 68-91, for the paragraph shape at [position() = n] *)
  Definition para_rules (n : Z) (x : xnode) : list rule :=
    let paragraph := tag_class "p" (zs "parashape-" ++ fmt_d (n - 1)) in
    [mkRule (Plain paragraph) (para_declarations x); mkRule (Child paragraph (tag "span")) (line_declarations x)].
  (** 215-226 *)
  Definition span_rules (n : Z) (x : xnode) : list rule := char_rules (Plain (tag_class "span" (zs "charshape-" ++ fmt_d (n - 1)))) x.

  (** 421-434 *)
  Definition border_width (x : xnode) : list Z :=
    if attr_is "width" "0.1mm" x || attr_is "width" "0.12mm" x || attr_is "width" "0.15mm" x || attr_is "width" "0.2mm" x ||
       attr_is "width" "0.25mm" x then zs "1px"
    else if attr_is "width" "0.4mm" x || attr_is "width" "0.5mm" x then zs "2px"
    else value_of "width" x.
  (** 436-458 *)
  Definition border_style (x : xnode) : list Z :=
    let is := attr_is "stroke-type" in
    if is "none" x then zs "none" else if is "solid" x then zs "solid" else if is "dashed" x then zs "dashed"
    else if is "dotted" x then zs "dotted" else if is "dash-dot" x then zs "dashed" else if is "dash-dot-dot" x then zs "dashed"
    else if is "long-dash" x then zs "dahsed" else if is "large-dot" x then zs "dotted" else if is "double" x then zs "double"
    else if is "double-2" x then zs "double" else if is "double-3" x then zs "double" else if is "triple" x then zs "double"
    else if is "wave" x then zs "solid" else if is "double-wave" x then zs "double" else if is "inset" x then zs "inset"
    else if is "outset" x then zs "outset" else if is "groove" x then zs "groove" else if is "ridge" x then zs "ridge"
    else zs "solid".
  (** 413-419 *)
  Definition border_value (x : xnode) : list Z := border_width x ++ [32] ++ border_style x ++ [32] ++ value_of "color" x.
  (** [Border[@attribute-name='side']] *)
  Definition border_of (side : string) (x : xnode) : list Z :=
    flat_map border_value (filter (fun b => named_node "Border" b && attr_is "attribute-name" side b) (kids_of_node x)).

  (** [/HwpDoc/DocInfo/IdMappings/BinData[n]] *)
  Definition bin_data (n : option Z) : list xnode :=
    flat_map (fun m => nth_child "BinData" n (kids_of_node m))
      (flat_map (children_named "IdMappings") (flat_map (children_named "DocInfo") (filter (named_node "HwpDoc") document))).
  (** 634-643 *)
  Definition image_path (x : xnode) : list Z := zs "bindata/" ++ value_of "storage-id" x ++ [46] ++ value_of "ext" x.
  Definition image_url (x : xnode) : list Z := flat_map image_path (children_named "BinDataEmbedding" x).
  (** 460-632: background colour, pattern, gradation (three times, for three
      browsers) and image *)
  Definition fill_declarations (x : xnode) : list declaration :=
    flat_map (fun f => gives "background-color" (value_of "background-color" f) ::
      when (existsb (fun v => attr_is "pattern-type" v f) ["horizontal"; "vertical"; "backslash"; "slash"; "grid"; "cross"])
        [gives "background-image" (measure "pattern" f)]) (children_named "FillColorPattern" x) ++
    flat_map (fun f => [gives "background-image" (zs "linear-gradient" ++ measure "gradient" f);
                        gives "background-image" (zs "-webkit-linear-gradient" ++ measure "gradient" f);
                        gives "background-image" (zs "-moz-linear-gradient" ++ measure "gradient" f)]) (children_named "FillGradation" x) ++
    flat_map (fun f => when (attr_is "fillimage-type" "resize" f)
                [gives "background-image" (zs "url(" ++ flat_map image_url (bin_data (number_of "bindata-id" f)) ++ zs ") ");
                 says "background-size" "100% 100%"]) (children_named "FillImage" x).
  (** 371-411 *)
  Definition borderfill_rules (n : Z) (x : xnode) : list rule :=
    [mkRule (Plain (class (zs "borderfill-" ++ fmt_d n)))
       ([gives "border-top" (border_of "top" x); gives "border-right" (border_of "right" x);
         gives "border-bottom" (border_of "bottom" x); gives "border-left" (border_of "left" x)] ++ fill_declarations x)].
  (** 142-202 *)
  Definition bullet_rules (n : Z) (x : xnode) : list rule :=
    [mkRule (Plain (with_pseudo "::before" (class (zs "Bullet-" ++ fmt_d n))))
       [gives "content" ([34] ++ value_of "char" x ++ [34]); says "display" "inline-block"; gives "text-align" (value_of "align" x);
        gives "width" (measure "bullet-width" x); gives "margin-right" (measure "bullet-space" x)]].

  (** [apply-templates] with [position()] from [n] on *)
  Fixpoint numbered {A} (f : Z -> xnode -> list A) (n : Z) (l : list xnode) : list A :=
    match l with [] => [] | x :: r => f n x ++ numbered f (n + 1) r end.
  (** 13-22 *)
  Definition mapping_rules (m : xnode) : list rule :=
    flat_map style_rules (children_named "Style" m) ++
    numbered para_rules 1 (children_named "ParaShape" m) ++
    numbered span_rules 1 (children_named "CharShape" m) ++
    numbered borderfill_rules 1 (children_named "BorderFill" m) ++
    numbered bullet_rules 1 (children_named "Bullet" m).

  (** hwp5css.xsl 5-59, the rules of styles.css *)
  Definition styles_css : list rule :=
    [mkRule (Plain (tag "body")) [says "background-color" "#eee"; says "padding" "4px"; says "margin" "0"];
     mkRule (Plain (class (zs "Paper"))) [says "background-color" "#fff"; says "border" "1px solid black"; says "margin" "1em auto"];
     mkRule (Plain (with_pseudo ":first-child" (class (zs "Paper")))) [says "margin-top" "0"];
     mkRule (Plain (with_pseudo ":last-child" (class (zs "Paper")))) [says "margin-bottom" "0"]] ++
    flat_map mapping_rules (flat_map (children_named "IdMappings") (flat_map (children_named "DocInfo") (filter (named_node "HwpDoc") document))).

  (** ** The page *)

  (** hwp5css-common.xsl 204-213 *)
  Definition bullet_class (x : xnode) : list Z :=
    if existsb (compares (fun n => 0 <? n) "numbering-bullet-id") (para_shape x)
    then [32] ++ zs "Bullet-" ++ value_of_first "numbering-bullet-id" (para_shape x) else [].
  (** hwp5html.xsl 107-128 *)
  Definition paragraph_class (x : xnode) : list Z :=
    let st := style_at (number_of "style-id" x) in
    dashes (value_of_first "name" st) ++
    (if same_attr "parashape-id" st x then flat_map bullet_class st
     else [32] ++ zs "parashape-" ++ value_of "parashape-id" x ++ bullet_class x).
  (** 139-159, for a text in paragraph [p] *)
  Definition text_class (p x : xnode) : list Z :=
    let st := style_at (number_of "style-id" p) in
    zs "lang-" ++ value_of "lang" x ++
    (if same_attr "charshape-id" st x then [] else [32] ++ zs "charshape-" ++ value_of "charshape-id" x).

  Definition html_attr (s : string) (v : list Z) : list Z * list Z := (zs s, v).
  Definition html (s : string) (attrs : list (list Z * list Z)) (kids : list xnode) : xnode := Element (zs s) attrs kids.

  (** 369-395: [img-src]; elements without a template are replaced by what their
      children give. *)
  Fixpoint img_src (x : xnode) : list (list Z * list Z) :=
    match x with
    | Characters _ => []
    | Element n _ kids =>
        if name_is "BinDataEmbedding" n then
          [html_attr "src" (if attr_is "inline" "true" x then zs "data:;base64," ++ first_text kids else image_path x)]
        else flat_map img_src kids
    end.
  Definition table_body (s : string) (x : xnode) : list Z := value_of_first s (children_named "TableBody" x).

  (** What is written in the line of a paragraph (129-131). *)
  Definition in_line (x : xnode) : bool :=
    named_node "Text" x || named_node "ControlChar" x || named_node "AutoNumbering" x ||
    ((named_node "TableControl" x || named_node "GShapeObjectControl" x) && attr_is "inline" "1" x).

  (** The templates without a mode (107-367) and the built-in ones, for a node and
      the nodes it is in. *)
  Fixpoint show (up : list xnode) (x : xnode) {struct x} : list xnode :=
    match x with
    | Characters t => [Characters t]
    | Element n _ kids =>
        if name_is "Paragraph" n then
          let lines (choose : xnode -> bool) :=
            flat_map (fun l => match l with
                               | Element ln _ lk =>
                                   if name_is "LineSeg" ln then flat_map (fun k => if choose k then show (l :: x :: up) k else []) lk else []
                               | Characters _ => []
                               end) kids in
          html "p" [html_attr "class" (paragraph_class x)] (lines in_line) ::
          lines (fun k => named_node "TableControl" k && attr_is "inline" "0" k) ++
          lines (fun k => named_node "GShapeObjectControl" k && attr_is "inline" "0" k)
        else if name_is "ControlChar" n then characters (value_of "char" x)
        else if name_is "Text" n && match up with l :: p :: _ => named_node "LineSeg" l && named_node "Paragraph" p | _ => false end then
          [html "span" [html_attr "class" (text_class (nth 1 up x) x)] (characters (first_text kids))]
        else if name_is "AutoNumbering" n then
          [html "span" [html_attr "class" (zs "autonumbering autonumbering-" ++ value_of "kind" x)]
             (characters (value_of "prefix" x ++ value_of "number" x ++ value_of "suffix" x))]
        else if name_is "TableControl" n && attr_is "inline" "1" x then
          [html "span" [html_attr "class" (zs "TableControl"); html_attr "style" (zs "  display: inline-block;" ++ [10])]
             [html "table" [html_attr "class" (zs "borderfill-" ++ table_body "borderfill-id" x);
                            html_attr "cellspacing" (table_body "cellspacing" x); html_attr "style" (style (x :: up))]
                (flat_map (show (x :: up)) kids)]]
        else if name_is "TableControl" n && attr_is "inline" "0" x then
          [html "table" [html_attr "class" (zs "TableControl borderfill-" ++ table_body "borderfill-id" x);
                         html_attr "cellspacing" (table_body "cellspacing" x); html_attr "style" (style (x :: up))]
             (flat_map (show (x :: up)) kids)]
        else if name_is "TableCaption" n then
          [html "caption" [html_attr "class" (zs "TableCaption"); html_attr "style" (style (x :: up))] (flat_map (show (x :: up)) kids)]
        else if name_is "TableRow" n then [html "tr" [] (flat_map (show (x :: up)) kids)]
        else if name_is "TableCell" n then
          [html "td" [html_attr "class" (zs "borderfill-" ++ value_of "borderfill-id" x); html_attr "style" (style (x :: up));
                      html_attr "rowspan" (value_of "rowspan" x); html_attr "colspan" (value_of "colspan" x)]
             (flat_map (show (x :: up)) kids)]
        else if name_is "GShapeObjectControl" n && attr_is "inline" "1" x then
          [html "span" [html_attr "class" (zs "GShapeObjectControl"); html_attr "style" (style (x :: up))] (flat_map (show (x :: up)) kids)]
        else if name_is "GShapeObjectControl" n && attr_is "inline" "0" x then
          [html "div" [html_attr "class" (zs "GShapeObjectControl"); html_attr "style" (style (x :: up))] (flat_map (show (x :: up)) kids)]
        else if name_is "ShapePicture" n then
          [html "img" (flat_map img_src (bin_data (match children_named "PictureInfo" x with i :: _ => number_of "bindata-id" i | [] => None end)) ++
                       [html_attr "style" (style (x :: up))]) []]
        else flat_map (show (x :: up)) kids
    end.

  (** 93-105: the paragraphs in [HeaderParagraphList] of a header, in
      [FooterParagraphList] of a footer *)
  Definition area (cls list_name : string) (path : list xnode) : list xnode :=
    [html "div" [html_attr "class" (zs cls)]
       (flat_map (fun l => flat_map (show (l :: path)) (children_named "Paragraph" l)) (children_named list_name (self path)))].
  Definition headers : list (list xnode) := filter (fun p => named_node "Header" (self p)) (all_nodes document).
  Definition footers : list (list xnode) := filter (fun p => named_node "Footer" (self p)) (all_nodes document).
  (** 71-91 *)
  Definition section_div (up : list xnode) (x : xnode) : xnode :=
    html "div" [html_attr "class" (zs "Section Section-" ++ value_of "section-id" x ++ zs " Paper")]
      [html "div" [html_attr "class" (zs "HeaderPageFooter")]
         (flat_map (area "HeaderArea" "HeaderParagraphList") headers ++
          [html "div" [html_attr "class" (zs "Page")] (flat_map (show (x :: up)) (kids_of_node x))] ++
          flat_map (area "FooterArea" "FooterParagraphList") footers)].
  (** 65-69, and 12-35 *)
  Definition body : list xnode :=
    flat_map (fun d => map (fun b => html "body" [] (map (section_div [b; d]) (children_named "SectionDef" b))) (children_named "BodyText" d))
      (filter (named_node "HwpDoc") document).

  (** hwp5css-common.xsl 645-774 *)
  Definition section_rules (x : xnode) : list rule :=
    let section := class (zs "Section-" ++ value_of "section-id" x) in
    let page := children_named "PageDef" x in
    [mkRule (Plain section)
       (flat_map (fun p => if attr_is "orientation" "portrait" p then [gives "width" (measure "width" p)]
                           else if attr_is "orientation" "landscape" p then [gives "width" (measure "height" p)] else []) page);
     mkRule (Inside section (class (zs "HeaderPageFooter")))
       (flat_map (fun p => [says "position" "relative"; gives "margin-top" (measure "top-offset" p); gives "margin-right" (measure "right-offset" p);
                            gives "margin-bottom" (measure "bottom-offset" p); gives "margin-left" (measure "left-offset" p)]) page);
     mkRule (Inside section (class (zs "Page")))
       (flat_map (fun p => [gives "padding-top" (measure "header-offset" p); gives "padding-bottom" (measure "footer-offset" p)]) page)].
  (** 776-846 *)
  Definition area_rules (cls side : string) (x : xnode) : list rule :=
    [mkRule (Plain (class (zs cls)))
       [says "position" "absolute"; says "left" "0"; says side "0"; gives "width" (measure "area-width" x); gives "height" (measure "area-height" x)]].
  (** hwp5html.xsl 25-31: the rules in the head of the page *)
  Definition page_rules : list rule :=
    flat_map section_rules (flat_map (children_named "SectionDef") (flat_map (children_named "BodyText") (filter (named_node "HwpDoc") document))) ++
    flat_map (fun p => area_rules "HeaderArea" "top" (self p)) headers ++
    flat_map (fun p => area_rules "FooterArea" "bottom" (self p)) footers.
End Sheets.
