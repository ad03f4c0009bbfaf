(** Specification of how styles are found in an OpenDocument text (OpenDocument
    1.2, part 1, sections 16.1 and 16.2), and of the documents that are written. *)
From Coq Require Import ZArith String List Bool.
From Verif Require Import Base Model_Text Model_XmlText Model_Plaintext Model_Html Spec_Html Model_Opendoc.
Import ListNotations.
Open Scope string_scope.
Open Scope list_scope.
Open Scope Z_scope.

(** ** OpenDocument *)

Definition is_attr (s : string) (v : list Z) (x : xnode) : bool := match attr s x with Some t => text_eqb t v | None => false end.
(** The styles of a family with a name. *)
Definition styles_named (family : string) (name : list Z) (styles : list xnode) : list xnode :=
  filter (fun s => named_node "style:style" s && is_attr "style:family" (zs family) s && is_attr "style:name" name s) styles.
(** What a style says about a property, in its child of a kind. *)
Definition says_itself (s : xnode) (kind prop : string) : option (list Z) := first_of (map (attr prop) (children_named kind s)).
(** What a style says, or its parent, and so on for [n] styles.  If there is none
    or more than one with the name, nothing can be said. *)
Fixpoint effective (n : nat) (styles : list xnode) (family : string) (name : list Z) (kind prop : string) : option (list Z) :=
  match n, styles_named family name styles with
  | S m, [s] =>
      match says_itself s kind prop, attr "style:parent-style-name" s with
      | Some v, _ => Some v
      | None, Some p => effective m styles family p kind prop
      | None, None => None
      end
  | _, _ => None
  end.
(** For a paragraph, and for text in it: its style, then that of the paragraph. *)
Definition paragraph_property (styles : list xnode) (p : xnode) (prop : string) : option (list Z) :=
  effective 2 styles "paragraph" (value_of "text:style-name" p) "style:paragraph-properties" prop.
Definition text_property (styles : list xnode) (p span : xnode) (prop : string) : option (list Z) :=
  first_of [match attr "text:style-name" span with Some name => effective 2 styles "text" name "style:text-properties" prop | None => None end;
            effective 2 styles "paragraph" (value_of "text:style-name" p) "style:text-properties" prop].

(** For tables, cells and drawings. *)
Definition table_property (styles : list xnode) (y : xnode) (prop : string) : option (list Z) :=
  effective 1 styles "table" (value_of "table:style-name" y) "style:table-properties" prop.
Definition cell_property (styles : list xnode) (y : xnode) (prop : string) : option (list Z) :=
  effective 1 styles "table-cell" (value_of "table:style-name" y) "style:table-cell-properties" prop.
Definition drawing_property (styles : list xnode) (y : xnode) (prop : string) : option (list Z) :=
  effective 1 styles "graphic" (value_of "draw:style-name" y) "style:graphic-properties" prop.

(** The characters of an OpenDocument text, with a line feed after each paragraph. *)
Fixpoint opendoc_text (x : xnode) : list Z :=
  match x with
  | Characters t => t
  | Element n _ kids => flat_map opendoc_text kids ++ (if name_is "text:p" n then [10] else [])
  end.

(** ** Documents *)

(** All elements with a name. *)
Definition nodes_named_in (s : string) (document : list xnode) : list xnode := filter (named_node s) (map self (all_nodes document)).
(** They are numbered, all with different numbers. *)
Definition numbered_by (a s : string) (document : list xnode) : Prop :=
  Forall (fun x => exists k, attr a x = Some (fmt_d (Z.of_nat k))) (nodes_named_in s document) /\ NoDup (map (attr a) (nodes_named_in s document)).
Record all_numbered (document : list xnode) : Prop := mkNumbered {
  an_paragraphs : numbered_by "paragraph-id" "Paragraph" document;
  an_tables : numbered_by "table-id" "TableControl" document;
  an_shapes : numbered_by "shape-id" "ShapeComponent" document
}.

(** Names of styles: what cannot be in a name is replaced. *)
Definition not_in_names : list Z := zs " !""#$%&'()*+,/:;<=>?@[\]^`{|}~".
Definition local_style_name (st : xnode) : list Z := map (fun c => if existsb (Z.eqb c) not_in_names then 95 else c) (value_of "local-name" st).
Definition always_there : list string := ["Standard"; "Heading"; "Text_20_body"; "List"; "Caption"; "Index"; "Table_20_Contents"].
(** Styles whose names are different from each other and from those of other styles. *)
Definition local_names_fine (styles : list xnode) : Prop :=
  NoDup (map local_style_name styles) /\
  Forall (fun st => ~ In (local_style_name st) (map zs always_there) /\ begins (zs "Paragraph-") (local_style_name st) = false) styles.

(** A document with one list of shapes, one text, and all that is named in it. *)
Record one_text (document : list xnode) (m d b : xnode) : Prop := mkOneText {
  ot_mapped : mapped document m;
  ot_document : filter (named_node "HwpDoc") document = [d];
  ot_info : List.length (children_named "DocInfo" d) = 1%nat;
  ot_body : children_named "BodyText" d = [b];
  ot_numbered : all_numbered document;
  ot_tables : Forall (fun x => List.length (children_named "TableBody" x) = 1%nat) (nodes_named_in "TableControl" document);
  ot_names : local_names_fine (children_named "Style" m)
}.

(** What is in the sections of a text. *)
Definition in_text (s : string) (b : xnode) : list xnode := nodes_named_in s (flat_map kids_of_node (children_named "SectionDef" b)).
(** What is shown of a text: what is in its sections, in lines of its paragraphs,
    in cells of tables, in boxes and in notes. *)
Inductive shown (b : xnode) : xnode -> Prop :=
  | sh_section : forall s k, In s (children_named "SectionDef" b) -> In k (kids_of_node s) -> shown b k
  | sh_column : forall c k, shown b c -> named_node "ColumnSet" c = true -> In k (kids_of_node c) -> shown b k
  | sh_line : forall p l k, shown b p -> named_node "Paragraph" p = true -> In l (children_named "LineSeg" p) -> In k (kids_of_node l) ->
      existsb (fun s => named_node s k) ["TableControl"; "GShapeObjectControl"; "FootNote"; "EndNote"] = true -> shown b k
  | sh_cell : forall x t r c k, shown b x -> named_node "TableControl" x = true -> In t (children_named "TableBody" x) -> In r (children_named "TableRow" t) ->
      In c (children_named "TableCell" r) -> In k (kids_of_node c) -> shown b k
  | sh_drawing : forall x k, shown b x -> named_node "GShapeObjectControl" x = true -> In k (children_named "ShapeComponent" x) -> shown b k
  | sh_group : forall x k, shown b x -> named_node "ShapeComponent" x = true -> attr "chid" x = Some (zs "$con") -> In k (children_named "ShapeComponent" x) -> shown b k
  | sh_box : forall x l k, shown b x -> named_node "ShapeComponent" x = true -> attr "chid" x = Some (zs "$rec") -> In l (children_named "TextboxParagraphList" x) ->
      In k (kids_of_node l) -> shown b k
  | sh_note : forall x l k, shown b x -> named_node "FootNote" x || named_node "EndNote" x = true -> In l (children_named "ListHeader" x) ->
      In k (children_named "Paragraph" l) -> shown b k.
(** Drawings by their kind. *)
Definition drawings : list (string * string) := [("$con", "draw:g"); ("$pic", "draw:frame"); ("$rec", "draw:rect"); ("$lin", "draw:line")].

(** The styles of an OpenDocument text, in its content.xml and styles.xml. *)
Definition file_styles (content styles : list xnode) : list xnode :=
  flat_map kids_of_node (flat_map (children_named "office:automatic-styles") content) ++ flat_map kids_of_node (flat_map (children_named "office:styles") styles).
(** The text of a content.xml. *)
Definition file_text (content : list xnode) : list xnode :=
  flat_map kids_of_node (flat_map (children_named "office:text") (flat_map (children_named "office:body") content)).
(** The page layouts and the kinds of pages of a styles.xml. *)
Definition page_layouts (name : list Z) (styles : list xnode) : list xnode :=
  filter (fun x => named_node "style:page-layout" x && is_attr "style:name" name x) (flat_map kids_of_node (flat_map (children_named "office:automatic-styles") styles)).
Definition master_pages (name : list Z) (styles : list xnode) : list xnode :=
  filter (fun x => named_node "style:master-page" x && is_attr "style:name" name x) (flat_map kids_of_node (flat_map (children_named "office:master-styles") styles)).

(** What is written in lines; texts with only texts before them in their line. *)
Definition in_line_names : list string := ["Text"; "GShapeObjectControl"; "FootNote"; "EndNote"; "ControlChar"].
Definition in_line_of (l : xnode) : list xnode := filter (fun k => existsb (fun s => named_node s k) in_line_names) (kids_of_node l).
Definition after_texts (l x : xnode) (j : nat) : Prop :=
  nth_error (in_line_of l) j = Some x /\ Forall (fun k => named_node "Text" k = true) (firstn (S j) (in_line_of l)).

(** Properties that are lengths, of paragraphs, lines and texts. *)
Definition lengths : list (string * string) :=
  [("fo:text-indent", "text-indent"); ("fo:margin-left", "margin-left"); ("fo:margin-right", "margin-right"); ("fo:margin-top", "margin-top"); ("fo:margin-bottom", "margin-bottom")].
Definition line_heights : list (string * (string * string)) :=
  [("ratio", ("fo:line-height", "line-ratio")); ("fixed", ("fo:line-height", "line-fixed")); ("spaceonly", ("style:line-spacing", "line-space"))].
Definition sizes : list (string * string) := [("fo:font-size", "font-size-en"); ("style:font-size-asian", "font-size-ko"); ("style:font-size-complex", "font-size-other")].
(** Lines of texts: how many, and what kind of line. *)
Definition text_strokes : list (string * (string * string)) :=
  [("solid", ("single", "solid")); ("dashed", ("single", "dash")); ("dotted", ("single", "dotted")); ("dash_dot", ("single", "dot-dash"));
   ("dash_dot_dot", ("single", "dot-dot-dash")); ("long_dashed", ("single", "long-dash")); ("large_dotted", ("single", "dotted"));
   ("double", ("double", "solid")); ("lower_weighted", ("double", "solid")); ("upper_weighted", ("double", "solid")); ("middle_weighted", ("double", "solid"))].
(** Kinds of borders that can be written (XSL, section 7.7.20). *)
Definition xsl_border_styles : list string := ["none"; "hidden"; "dotted"; "dashed"; "solid"; "double"; "groove"; "ridge"; "inset"; "outset"].

(** Outlines of drawings. *)
Definition drawing_strokes : list (string * string) := [("none", "none"); ("solid", "solid"); ("dashed", "dash"); ("dotted", "dash")].
(** Places of drawings that are not in lines: attribute, value, property, its value. *)
Definition places : list ((string * string) * (string * string)) :=
  [(("flow", "block"), ("style:wrap", "none")); (("flow", "back"), ("style:wrap", "run-through")); (("flow", "front"), ("style:wrap", "run-through"));
   (("vrelto", "page"), ("style:vertical-rel", "page-content")); (("vrelto", "paper"), ("style:vertical-rel", "page")); (("vrelto", "paragraph"), ("style:vertical-rel", "paragraph"));
   (("hrelto", "page"), ("style:horizontal-rel", "page-content")); (("hrelto", "paper"), ("style:horizontal-rel", "page")); (("hrelto", "column"), ("style:horizontal-rel", "page-content"));
   (("hrelto", "paragraph"), ("style:horizontal-rel", "paragraph"));
   (("halign", "left"), ("style:horizontal-pos", "from-left")); (("halign", "right"), ("style:horizontal-pos", "right")); (("halign", "inside"), ("style:horizontal-pos", "from-inside"));
   (("halign", "outside"), ("style:horizontal-pos", "outside"));
   (("valign", "top"), ("style:vertical-pos", "from-top")); (("valign", "middle"), ("style:vertical-pos", "middle")); (("valign", "bottom"), ("style:vertical-pos", "bottom"))].
(** On which sides of drawings that float the text is. *)
Definition wraps : list (string * string) := [("both", "parallel"); ("left", "left"); ("right", "right"); ("larger", "biggest")].
(** The fonts declared in a file. *)
Definition declared_fonts (name : list Z) (file : list xnode) : list xnode :=
  filter (fun x => named_node "style:font-face" x && is_attr "style:name" name x) (flat_map kids_of_node (flat_map (children_named "office:font-face-decls") file)).

(** How many columns the cells of a row take, in OpenDocument: one each, whatever
    they span (the covered ones have elements of their own). *)
Definition cells_in_row (row : xnode) : nat := List.length (children_named "table:table-cell" row) + List.length (children_named "table:covered-table-cell" row).

(** Paragraphs with only text and control characters in their lines. *)
Definition only_text (x : xnode) : bool := named_node "Text" x && forallb (fun k => match k with Characters _ => true | _ => false end) (kids_of_node x).
Fixpoint simple_text (x : xnode) : bool :=
  match x with
  | Characters _ => true
  | Element n _ kids =>
      negb (existsb (fun s => name_is s n) ["Text"; "LineSeg"; "ControlChar"; "TableControl"; "GShapeObjectControl"; "ShapeComponent"; "FootNote"; "EndNote"]) &&
      (if name_is "Paragraph" n then
         forallb (fun l => match l with
                           | Element ln _ lk => name_is "LineSeg" ln && forallb (fun k => only_text k || control_char k || wordless k) lk
                           | Characters _ => false
                           end) kids
       else forallb simple_text kids)
  end.
