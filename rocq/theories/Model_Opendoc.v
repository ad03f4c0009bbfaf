(** Model of the style sheets of hwp5odt: xsl/odt/common.xsl, xsl/odt/content.xsl
    (content.xml), xsl/odt/styles.xsl (styles.xml) and xsl/odt/document.xsl (one
    file, with --document), and of what an XSLT 1.0
    processor does with them (external: lxml or xsltproc).

    Simplifications: numbers are integers (the attributes used are); lengths,
    which are computed in floating point, and attributes for the place and size of
    drawings are given by functions; prefixes stand for namespaces; of several
    attributes with one name all are listed; texts are in lines and lines are in
    paragraphs, a table has one body (xmlmodel.py makes it so); of the styles that
    are the same in all documents only names, families and parents are listed. *)
From Coq Require Import ZArith String List Bool.
From Verif Require Import Base Model_Text Model_XmlText Model_Plaintext Model_Html.
Import ListNotations.
Open Scope string_scope.
Open Scope list_scope.
Open Scope Z_scope.

(** ** XPath *)

(** [translate(t, from, to)] *)
Fixpoint place (c : Z) (from : list Z) : option nat :=
  match from with [] => None | d :: r => if c =? d then Some 0%nat else option_map S (place c r) end.
Definition translate (t from to : list Z) : list Z :=
  flat_map (fun c => match place c from with None => [c] | Some k => match nth_error to k with Some d => [d] | None => [] end end) t.
(** [value-of] a number *)
Definition number_text (n : option Z) : list Z := match n with Some k => fmt_d k | None => zs "NaN" end.
(** [$nodes/@s + 1] *)
Definition first_plus_one (s : string) (nodes : list xnode) : option Z := plus_one (match nodes with x :: _ => number_of s x | [] => None end).
(** [a != b] of numbers: NaN is different from all. *)
Definition differ (a b : option Z) : bool := match a, b with Some x, Some y => negb (x =? y) | _, _ => true end.

(** [apply-templates] or [for-each] on the chosen nodes, with [position()] from [n] on *)
Section Counted.
  Context {A : Type} (choose : xnode -> bool) (f : Z -> xnode -> list A).
  Fixpoint counted (n : Z) (l : list xnode) : list A :=
    match l with [] => [] | x :: r => if choose x then f n x ++ counted (n + 1) r else counted n r end.
End Counted.

Notation attribute := (list Z * list Z)%type (only parsing).
Definition put (s : string) (v : list Z) : attribute := (zs s, v).
Definition puts (s v : string) : attribute := (zs s, zs v).
Definition elem (s : string) (attrs : list attribute) (kids : list xnode) : xnode := Element (zs s) attrs kids.
Definition when_attr (b : bool) (l : list attribute) : list attribute := if b then l else [].

(** common.xsl 247-248 *)
Definition prohibited : list Z :=
  [32; 33; 34; 35; 36; 37; 38; 39; 40; 41; 42; 43; 44; 47; 58; 59; 60; 61; 62; 63; 64; 91; 92; 93; 94; 96; 123; 124; 125; 126].
(** 241-250 *)
Definition make_ncname (t : list Z) : list Z := translate t prohibited (repeat 95 30).
(** 212-216 *)
Definition make_style_name (x : xnode) : list Z := make_ncname (value_of "local-name" x).

Section Odt.
  (** A length with its unit, for a property of a node. *)
  Variable measure : string -> xnode -> list Z.
  (** The attributes of a drawing for its place and size, for a node and the nodes
      it is in (1390-1431, 1501-1569, 1571-1588). *)
  Variable geometry : list xnode -> list attribute.
  Variable document : list xnode.

  (** [/HwpDoc/DocInfo/IdMappings/s[n]] *)
  Definition id_mapping (s : string) (n : option Z) : list xnode :=
    flat_map (fun m => nth_child s n (kids_of_node m))
      (flat_map (children_named "IdMappings") (flat_map (children_named "DocInfo") (filter (named_node "HwpDoc") document))).

  (** ** Properties *)

  (** 425-435 *)
  Definition text_align (x : xnode) : list Z :=
    if attr_is "align" "both" x then zs "justify"
    else if attr_is "align" "left" x then zs "left"
    else if attr_is "align" "right" x then zs "right"
    else if attr_is "align" "center" x then zs "center"
    else if attr_is "align" "distribute" x then zs "justify"
    else if attr_is "align" "distribute_space" x then zs "justify"
    else zs "justify".
  (** 361-514 *)
  Definition para_attributes (x : xnode) : list attribute :=
    [put "fo:text-align" (text_align x); put "fo:text-indent" (measure "text-indent" x); put "fo:margin-left" (measure "margin-left" x);
     put "fo:margin-right" (measure "margin-right" x); put "fo:margin-top" (measure "margin-top" x); put "fo:margin-bottom" (measure "margin-bottom" x)] ++
    (if attr_is "linespacing-type" "ratio" x then [put "fo:line-height" (measure "line-ratio" x)]
     else if attr_is "linespacing-type" "fixed" x then [put "fo:line-height" (measure "line-fixed" x); puts "style:vertical-align" "top"]
     else if attr_is "linespacing-type" "spaceonly" x then [put "style:line-spacing" (measure "line-space" x)]
     else []).

  (** 543-559: [//FaceName[@lang + 1]] *)
  Definition font_name (s lang : string) (x : xnode) : list attribute :=
    flat_map (fun f => map (fun face => put s (value_of "name" face)) (anywhere "FaceName" (plus_one (number_of lang f)) document))
      (children_named "FontFace" x).
  (** 621-635 *)
  Definition stroke (x : xnode) : list Z :=
    let is := fun v => attr_is "underline-style" v x in
    if is "solid" then zs "solid" else if is "dashed" then zs "dash" else if is "dotted" then zs "dotted" else if is "dash_dot" then zs "dot-dash"
    else if is "dash_dot_dot" then zs "dot-dot-dash" else if is "long_dashed" then zs "long-dash" else if is "large_dotted" then zs "dotted"
    else if is "double" then zs "solid" else if is "lower_weighted" then zs "solid" else if is "upper_weighted" then zs "solid"
    else if is "middle_weighted" then zs "solid" else [].
  (** 637-651 *)
  Definition strokes (x : xnode) : list Z :=
    let is := fun v => attr_is "underline-style" v x in
    if is "solid" then zs "single" else if is "dashed" then zs "single" else if is "dotted" then zs "single" else if is "dash_dot" then zs "single"
    else if is "dash_dot_dot" then zs "single" else if is "long_dashed" then zs "single" else if is "large_dotted" then zs "single"
    else if is "double" then zs "double" else if is "lower_weighted" then zs "double" else if is "upper_weighted" then zs "double"
    else if is "middle_weighted" then zs "double" else [].
  (** 653-699, for the line named [line] of texts with [@underline = 'kind'] *)
  Definition text_line (line kind : string) (x : xnode) : list attribute :=
    let p := fun s => ("style:text-" ++ line ++ "-" ++ s)%string in
    if attr_is "underline" kind x then [put (p "type") (strokes x); put (p "style") (stroke x); puts (p "width") "auto"; put (p "color") (value_of "underline-color" x)]
    else [puts (p "type") "none"].
  (** 516-619 *)
  Definition text_properties (x : xnode) : xnode :=
    elem "style:text-properties"
      (font_name "style:font-name" "en" x ++ font_name "style:font-name-asian" "ko" x ++
       [put "fo:font-size" (measure "font-size-en" x); put "style:font-size-asian" (measure "font-size-ko" x);
        put "style:font-size-complex" (measure "font-size-other" x)] ++
       when_attr (compares (Z.eqb 1) "italic" x) [puts "fo:font-style" "italic"; puts "style:font-style-asian" "italic"; puts "style:font-style-complex" "italic"] ++
       text_line "underline" "underline" x ++ text_line "overline" "overline" x ++ text_line "line-through" "line_through" x ++
       when_attr (compares (Z.eqb 1) "bold" x) [puts "fo:font-weight" "bold"; puts "style:font-weight-asian" "bold"; puts "style:font-weight-complex" "bold"]) [].

  (** ** styles.xml *)

  (** 218-239, 352-359 *)
  Definition style_of_style (x : xnode) : xnode :=
    elem "style:style"
      [put "style:name" (make_style_name x);
       put "style:next-style-name" (flat_map make_style_name (id_mapping "Style" (plus_one (number_of "next-style-id" x))));
       puts "style:family" "paragraph"; puts "style:class" "text"]
      (elem "style:paragraph-properties" (flat_map para_attributes (id_mapping "ParaShape" (plus_one (number_of "parashape-id" x)))) [] ::
       map text_properties (id_mapping "CharShape" (plus_one (number_of "charshape-id" x)))).
  Definition fixed_style (name family : string) (parent : option string) : xnode :=
    elem "style:style" ([puts "style:name" name; puts "style:family" family] ++ match parent with Some p => [puts "style:parent-style-name" p] | None => [] end) [].
  (** 88-114 *)
  Definition fixed_styles : list xnode :=
    [fixed_style "Standard" "paragraph" None; fixed_style "Heading" "paragraph" (Some "Standard"); fixed_style "Text_20_body" "paragraph" (Some "Standard");
     fixed_style "List" "paragraph" (Some "Text_20_body"); fixed_style "Caption" "paragraph" (Some "Standard"); fixed_style "Index" "paragraph" (Some "Standard");
     fixed_style "Table_20_Contents" "paragraph" (Some "Standard"); fixed_style "Graphics" "graphic" None].
  Definition doc_infos : list xnode := flat_map (children_named "DocInfo") (filter (named_node "HwpDoc") document).
  Definition body_texts : list xnode := flat_map (children_named "BodyText") (filter (named_node "HwpDoc") document).
  Definition sections : list xnode := flat_map (children_named "SectionDef") body_texts.
  (** 69-173: the styles in [office:styles] *)
  Definition common_styles : list xnode :=
    flat_map (fun d => fixed_styles ++ map style_of_style (flat_map (children_named "Style") (flat_map (children_named "IdMappings") [d]))) doc_infos.

  (** 194-210 *)
  Definition font_face (x : xnode) : xnode :=
    let serif test := existsb (compares test "serif-style") (children_named "Panose1" x) in
    elem "style:font-face"
      [put "style:name" (value_of "name" x); put "svg:font-family" ([39] ++ value_of "name" x ++ [39]);
       put "style:font-family-generic" (if serif (fun n => n <? 11) then zs "roman" else if serif (fun n => 11 <=? n) then zs "swiss" else []);
       puts "style:font-pitch" "variable"] [].
  (** 58-67; the names of the first two that are always there are ASCII *)
  Definition font_faces : list xnode :=
    flat_map (fun d => map (fun n => elem "style:font-face" [put "style:name" n] [])
                         [zs "serif"; zs "sans-serif"; [0xBA85; 0xC870]; [0xACE0; 0xB515]; zs "Lohit Hindi"] ++
                       map font_face (flat_map (children_named "FaceName") (children_named "IdMappings" d))) doc_infos.

  (** 272-350 *)
  Definition page_attributes (x : xnode) : list attribute :=
    [put "style:print-orientation" (value_of "orientation" x)] ++
    (if attr_is "orientation" "portrait" x then [put "fo:page-width" (measure "width" x); put "fo:page-height" (measure "height" x)]
     else if attr_is "orientation" "landscape" x then [put "fo:page-width" (measure "height" x); put "fo:page-height" (measure "width" x)]
     else []) ++
    [put "fo:margin-top" (measure "top-offset" x); put "fo:margin-left" (measure "left-offset" x);
     put "fo:margin-right" (measure "right-offset" x); put "fo:margin-bottom" (measure "bottom-offset" x)].
  (** 252-270 *)
  Definition page_layout (x : xnode) : xnode :=
    elem "style:page-layout" [put "style:name" (zs "PageLayout-" ++ number_text (plus_one (number_of "section-id" x)))]
      (map (fun p => elem "style:page-layout-properties" (page_attributes p) [elem "style:footnote-sep" [] []]) (children_named "PageDef" x) ++
       [elem "style:header-style" [] []; elem "style:footer-style" [] []]).
  (** 175-192 *)
  Definition master_page (x : xnode) : xnode :=
    elem "style:master-page"
      [put "style:name" (zs "MasterPage-" ++ number_text (plus_one (number_of "section-id" x)));
       put "style:page-layout-name" (zs "PageLayout-" ++ number_text (plus_one (number_of "section-id" x)))] [].
  (** styles.xsl 41-50 *)
  Definition styles_xml : list xnode :=
    map (fun d => elem "office:document-styles" []
      [elem "office:font-face-decls" [] font_faces; elem "office:styles" [] common_styles;
       elem "office:automatic-styles" [] (map page_layout sections); elem "office:master-styles" [] (map master_page sections)])
      (filter (named_node "HwpDoc") document).

  (** ** content.xml: the styles *)

  Definition paragraph_number (x : xnode) : list Z := number_text (plus_one (number_of "paragraph-id" x)).
  (** 875-882, 760-765: whether a paragraph has a style of its own, where [styles]
      are those with its number *)
  Definition own_style (styles : list xnode) (x : xnode) : bool :=
    differ (first_plus_one "parashape-id" styles) (plus_one (number_of "parashape-id" x)) || attr_is "new-page" "1" x.
  (** 862-867, and the built-in template of elements: the sections below a node *)
  Definition master_page_name (x : xnode) : list attribute :=
    map (fun s => put "style:master-page-name" (zs "MasterPage-" ++ number_text (plus_one (number_of "section-id" s))))
      (if named_node "SectionDef" x then [x] else filter (named_node "SectionDef") (map self (below [] x))).
  (** 758-860, for a paragraph and the nodes it is in *)
  Definition style_of_paragraph (path : list xnode) : list xnode :=
    let x := self path in
    let st := anywhere "Style" (plus_one (number_of "style-id" x)) document in
    if own_style st x then
      [elem "style:style"
         ([puts "style:family" "paragraph"; puts "style:class" "text"; put "style:name" (zs "Paragraph-" ++ paragraph_number x)] ++
          map (fun s => put "style:parent-style-name" (make_style_name s)) st ++
          (if attr_is "new-section" "1" x then match path with _ :: _ :: s :: _ => master_page_name s | _ => [] end else []))
         [elem "style:paragraph-properties"
            (flat_map para_attributes (anywhere "ParaShape" (plus_one (number_of "parashape-id" x)) document) ++
             when_attr (attr_is "new-page" "1" x) [puts "fo:break-before" "page"]) []]]
    else [].
  (** 726-733, 917 *)
  Definition text_style_name (paragraph : xnode) (line text : Z) : list Z :=
    zs "p" ++ paragraph_number paragraph ++ zs "-" ++ fmt_d line ++ zs "-" ++ fmt_d text.
  (** 742-756 *)
  Definition style_of_text (name : list Z) (style_charshape : option Z) (x : xnode) : list xnode :=
    let n := plus_one (number_of "charshape-id" x) in
    if differ style_charshape n then
      [elem "style:style" [puts "style:family" "text"; put "style:name" name] (map text_properties (anywhere "CharShape" n document))]
    else [].
  (** 715-740 *)
  Definition styles_of_paragraph (path : list xnode) : list xnode :=
    let x := self path in
    let st := anywhere "Style" (plus_one (number_of "style-id" x)) document in
    style_of_paragraph path ++
    counted (named_node "LineSeg") (fun line l =>
      counted (named_node "Text") (fun text t => style_of_text (text_style_name x line text) (first_plus_one "charshape-id" st) t) 1 (kids_of_node l))
      1 (kids_of_node x).

  Definition table_name (x : xnode) : list Z := zs "Table-" ++ number_text (plus_one (number_of "table-id" x)).
  Definition cell_name (table : xnode) (row column : Z) : list Z := table_name table ++ zs "-" ++ fmt_d row ++ zs "-" ++ fmt_d column.
  (** 1126-1168 *)
  Definition style_of_table (x : xnode) : xnode :=
    elem "style:style" [put "style:name" (table_name x); puts "style:family" "table"]
      [elem "style:table-properties"
         ((if attr_is "width-relto" "absolute" x then
             [put "style:width" (measure "width" x); puts "table:align" "margins"; put "fo:margin-left" (measure "table-margin-left" x);
              put "fo:margin-right" (measure "table-margin-right" x)]
           else []) ++
          [put "fo:margin-top" (measure "table-margin-top" x); put "fo:margin-bottom" (measure "table-margin-bottom" x);
           puts "table:border-model" (if existsb (compares (Z.eqb 0) "cellspacing") (children_named "TableBody" x) then "collapsing" else "separating")]) []].
  (** 1083-1124 *)
  Definition border_attribute (side : string) (x : xnode) : list attribute :=
    map (fun b => put ("fo:border-" ++ side) (value_of "width" b ++ zs " " ++ value_of "stroke-type" b ++ zs " " ++ value_of "color" b))
      (filter (fun b => named_node "Border" b && attr_is "attribute-name" side b) (kids_of_node x)).
  (** 964-1081 *)
  Definition style_of_cell (name : list Z) (x : xnode) : xnode :=
    elem "style:style" [put "style:name" name; puts "style:family" "table-cell"]
      [elem "style:table-cell-properties"
         ([put "fo:padding-left" (measure "padding-left" x); put "fo:padding-right" (measure "padding-right" x);
           put "fo:padding-top" (measure "padding-top" x); put "fo:padding-bottom" (measure "padding-bottom" x)] ++
          flat_map (fun b =>
            border_attribute "left" b ++ border_attribute "right" b ++ border_attribute "top" b ++ border_attribute "bottom" b ++
            map (fun f => put "fo:background-color" (value_of "background-color" f)) (children_named "FillColorPattern" b))
            (id_mapping "BorderFill" (number_of "borderfill-id" x))) []].
  (** 949-962 *)
  Definition styles_of_cells (x : xnode) : list xnode :=
    flat_map (fun b =>
      counted (named_node "TableRow") (fun row r =>
        counted (named_node "TableCell") (fun column c => [style_of_cell (cell_name x row column) c]) 1 (kids_of_node r)) 1 (kids_of_node b))
      (children_named "TableBody" x).

  Definition shape_name (x : xnode) : list Z := zs "Shape-" ++ number_text (plus_one (number_of "shape-id" x)).
  (** 1170-1316 *)
  Definition placement (x : xnode) : list attribute :=
    [put "fo:margin-left" (measure "shape-margin-left" x); put "fo:margin-right" (measure "shape-margin-right" x);
     put "fo:margin-top" (measure "shape-margin-top" x); put "fo:margin-bottom" (measure "shape-margin-bottom" x)] ++
    (if compares (Z.eqb 0) "inline" x then
       (if attr_is "flow" "float" x then
          if attr_is "text-side" "both" x then [puts "style:wrap" "parallel"]
          else if attr_is "text-side" "left" x then [puts "style:wrap" "left"]
          else if attr_is "text-side" "right" x then [puts "style:wrap" "right"]
          else if attr_is "text-side" "larger" x then [puts "style:wrap" "biggest"] else []
        else if attr_is "flow" "block" x then [puts "style:wrap" "none"]
        else if attr_is "flow" "back" x then [puts "style:wrap" "run-through"]
        else if attr_is "flow" "front" x then [puts "style:wrap" "run-through"] else []) ++
       [puts "style:vertical-rel" (if attr_is "vrelto" "page" x then "page-content" else if attr_is "vrelto" "paper" x then "page" else "paragraph");
        puts "style:horizontal-rel" (if attr_is "hrelto" "page" x then "page-content" else if attr_is "hrelto" "paper" x then "page"
                                     else if attr_is "hrelto" "column" x then "page-content" else "paragraph");
        puts "style:horizontal-pos" (if attr_is "halign" "left" x then "from-left" else if attr_is "halign" "inside" x then "from-inside"
                                     else if attr_is "halign" "center" x && compares (Z.eqb 0) "x" x then "center"
                                     else if attr_is "halign" "center" x then "from-left" else if attr_is "halign" "outside" x then "outside"
                                     else if attr_is "halign" "right" x then "right" else "");
        puts "style:vertical-pos" (if attr_is "valign" "top" x then "from-top" else if attr_is "valign" "middle" x then "middle"
                                   else if attr_is "valign" "bottom" x then "bottom" else "top")]
     else [puts "style:vertical-rel" "baseline"; puts "style:vertical-pos" "top"]).
  (** 1321-1347 *)
  Definition fill (x : xnode) : list attribute :=
    if compares (Z.eqb 1) "fill-colorpattern" x
    then [puts "draw:fill" "solid"; put "draw:fill-color" (value_of_first "background-color" (children_named "FillColorPattern" x))]
    else [puts "draw:fill" "none"].
  (** 1349-1375 *)
  Definition outline (x : xnode) : list attribute :=
    flat_map (fun b =>
      [puts "draw:stroke" (if attr_is "stroke" "none" b then "none" else if attr_is "stroke" "solid" b then "solid"
                           else if attr_is "stroke" "dashed" b then "dash" else if attr_is "stroke" "dotted" b then "dash" else "solid");
       put "svg:stroke-color" (value_of "color" b); put "svg:stroke-width" (measure "stroke-width" b)]) (children_named "BorderLine" x).
  (** 1377-1388; 1318-1319 for the parts of a group *)
  Definition style_of_shape (path : list xnode) : xnode :=
    let x := self path in
    elem "style:style" [put "style:name" (shape_name x); puts "style:family" "graphic"]
      [elem "style:graphic-properties"
         (match path with _ :: o :: _ => if named_node "GShapeObjectControl" o then placement o else [] | _ => [] end ++ fill x ++ outline x) []].

  (** [//s] *)
  Definition everywhere (s : string) : list (list xnode) := filter (fun p => named_node s (self p)) (all_nodes document).
  (** [SectionDef//s] in BodyText [b] of [d] *)
  Definition in_sections (s : string) (d b : xnode) : list (list xnode) :=
    flat_map (fun x => flat_map (fun k => filter (fun p => named_node s (self p)) (below [x; b; d] k)) (kids_of_node x)) (children_named "SectionDef" b).
  (** content.xsl 55-62 *)
  Definition automatic_styles (d b : xnode) : list xnode :=
    flat_map styles_of_paragraph (everywhere "Paragraph") ++
    map (fun p => style_of_table (self p)) (in_sections "TableControl" d b) ++
    flat_map (fun p => styles_of_cells (self p)) (in_sections "TableControl" d b) ++
    map style_of_shape (in_sections "ShapeComponent" d b).

  (** ** content.xml: the text *)

  (** 873-890 *)
  Definition paragraph_style_name (x : xnode) : list Z :=
    let st := id_mapping "Style" (plus_one (number_of "style-id" x)) in
    if own_style st x then zs "Paragraph-" ++ paragraph_number x else flat_map make_style_name st.
  (** 906-921 *)
  Definition span (paragraph : xnode) (line text : Z) (x : xnode) : xnode :=
    let st := id_mapping "Style" (plus_one (number_of "style-id" paragraph)) in
    elem "text:span"
      (when_attr (differ (first_plus_one "charshape-id" st) (plus_one (number_of "charshape-id" x))) [put "text:style-name" (text_style_name paragraph line text)])
      (characters (first_text (kids_of_node x))).
  (** 1470-1497 *)
  Definition image (x : xnode) : xnode :=
    let data := id_mapping "BinData" (match children_named "PictureInfo" x with i :: _ => number_of "bindata-id" i | [] => None end) in
    let embedded := if existsb (attr_is "storage" "embedding") data then flat_map (children_named "BinDataEmbedding") data else [] in
    elem "draw:image"
      (flat_map (fun d => if attr_is "inline" "true" d then [] else
         [puts "xlink:actuate" "onLoad"; puts "xlink:show" "embed"; puts "xlink:type" "simple";
          put "xlink:href" (zs "bindata/" ++ value_of "storage-id" d ++ zs "." ++ value_of "ext" d)]) embedded)
      (flat_map (fun d => if attr_is "inline" "true" d then [elem "office:binary-data" [] (characters (first_text (kids_of_node d)))] else []) embedded).
  (** What is written in a line (900). *)
  Definition written (x : xnode) : bool :=
    named_node "Text" x || named_node "GShapeObjectControl" x || named_node "FootNote" x || named_node "EndNote" x || named_node "ControlChar" x.

  (** 869-1628, the templates without a mode and the built-in ones, for a node and
      the nodes it is in *)
  Fixpoint write (up : list xnode) (x : xnode) {struct x} : list xnode :=
    match x with
    | Characters t => [Characters t]
    | Element n _ kids =>
        if name_is "Paragraph" n then                                                              (* 873-904 *)
          elem "text:p" [put "text:style-name" (paragraph_style_name x)]
            (counted (named_node "LineSeg") (fun line l =>
               match l with
               | Element _ _ lk =>
                   counted written (fun text k => if named_node "Text" k then [span x line text k] else write (l :: x :: up) k) 1 lk
               | Characters _ => []
               end) 1 kids) ::
          flat_map (fun l => match l with
                             | Element ln _ lk => if name_is "LineSeg" ln then flat_map (fun k => if named_node "TableControl" k then write (l :: x :: up) k else []) lk else []
                             | Characters _ => []
                             end) kids
        else if name_is "Text" n || name_is "LineSeg" n || name_is "ControlChar" n then []         (* 923 *)
        else if name_is "TableControl" n then                                                      (* 925-947 *)
          [elem "table:table" [put "table:style-name" (table_name x)]
             (elem "table:table-column" [put "table:number-columns-repeated" (value_of_first "cols" (children_named "TableBody" x))] [] ::
              flat_map (fun b => match b with
                | Element bn _ rows =>
                    if name_is "TableBody" bn then
                      counted (named_node "TableRow") (fun row r => match r with
                        | Element _ _ cells =>
                            [elem "table:table-row" []
                               (counted (named_node "TableCell") (fun column c => match c with
                                  | Element _ _ inside =>
                                      [elem "table:table-cell"
                                         [put "table:style-name" (cell_name x row column);
                                          put "table:number-columns-spanned" (value_of "colspan" c); put "table:number-rows-spanned" (value_of "rowspan" c)]
                                         (flat_map (write (c :: r :: b :: x :: up)) inside)]
                                  | Characters _ => []
                                  end) 1 cells)]
                        | Characters _ => []
                        end) 1 rows
                    else []
                | Characters _ => []
                end) kids)]
        else if name_is "GShapeObjectControl" n then                                               (* 1433-1438 *)
          flat_map (fun k => if named_node "ShapeComponent" k then write (x :: up) k else []) kids
        else if name_is "ShapeComponent" n && attr_is "chid" "$con" x then                         (* 1440-1451 *)
          [elem "draw:g" (put "draw:style-name" (shape_name x) :: geometry (x :: up))
             (flat_map (fun k => if named_node "ShapeComponent" k then write (x :: up) k else []) kids)]
        else if name_is "ShapeComponent" n && attr_is "chid" "$pic" x then                         (* 1453-1499 *)
          [elem "draw:frame" (put "draw:style-name" (shape_name x) :: geometry (x :: up)) (map image (children_named "ShapePicture" x))]
        else if name_is "ShapeComponent" n && attr_is "chid" "$rec" x then                         (* 1546-1569 *)
          [elem "draw:rect" (put "draw:style-name" (shape_name x) :: geometry (x :: up))
             (flat_map (fun l => match l with
                | Element ln _ lk => if name_is "TextboxParagraphList" ln then flat_map (write (l :: x :: up)) lk else []
                | Characters _ => []
                end) kids)]
        else if name_is "ShapeComponent" n && attr_is "chid" "$lin" x then                         (* 1571-1588 *)
          [elem "draw:line" (put "draw:style-name" (shape_name x) :: geometry (x :: up)) []]
        else if name_is "FootNote" n || name_is "EndNote" n then                                   (* 1590-1628 *)
          [elem "text:note"
             [put "text:id" (n ++ zs "-" ++ value_of "number" x); puts "text:note-class" (if name_is "FootNote" n then "footnote" else "endnote")]
             [elem "text:note-citation" [] (characters (value_of "number" x));
              elem "text:note-body" []
                (flat_map (fun l => match l with
                   | Element ln _ lk => if name_is "ListHeader" ln then flat_map (fun k => if named_node "Paragraph" k then write (l :: x :: up) k else []) lk else []
                   | Characters _ => []
                   end) kids)]]
        else flat_map (write (x :: up)) kids                                                       (* 869-871 *)
    end.

  (** 701-713: the text of a document *)
  Definition office_text (d b : xnode) : list xnode :=
    elem "text:sequence-decls" [] [] :: flat_map (write [b; d]) (children_named "SectionDef" b).
  (** content.xsl 44-53 *)
  Definition content_xml : list xnode :=
    flat_map (fun d => [elem "office:document-content" []
      ([elem "office:scripts" [] []; elem "office:font-face-decls" [] []] ++
       map (fun b => elem "office:automatic-styles" [] (automatic_styles d b)) (children_named "BodyText" d) ++
       map (fun b => elem "office:body" [] [elem "office:text" [] (office_text d b)]) (children_named "BodyText" d))])
      (filter (named_node "HwpDoc") document).
  (** 36-56, document.xsl 40-42: one file *)
  Definition document_xml : list xnode :=
    flat_map (fun d => [elem "office:document" []
      ([elem "office:scripts" [] []; elem "office:font-face-decls" [] font_faces; elem "office:styles" [] common_styles;
        elem "office:automatic-styles" []
          (map page_layout sections ++ flat_map styles_of_paragraph (everywhere "Paragraph") ++ map (fun p => style_of_table (self p)) (everywhere "TableControl") ++
           flat_map (fun p => styles_of_cells (self p)) (everywhere "TableControl") ++ map style_of_shape (everywhere "ShapeComponent"));
        elem "office:master-styles" [] (map master_page sections)] ++
       map (fun b => elem "office:body" [] [elem "office:text" [] (office_text d b)]) (children_named "BodyText" d))])
      (filter (named_node "HwpDoc") document).
End Odt.
