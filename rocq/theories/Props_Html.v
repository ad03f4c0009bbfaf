(** C86: paragraphs and texts on the pages of hwp5html. *)
From Coq Require Import ZArith String List Bool Lia.
From Verif Require Import Base Model_Text Model_XmlText Model_Plaintext Model_Html Spec_Text Spec_Html Proof_Html Proof_Html2 Proof_Html3 Proof_Html4.
Import ListNotations.
Open Scope string_scope.
Open Scope list_scope.
Open Scope Z_scope.

(** ** C86 *)

Implicit Type measure : string -> xnode -> list Z.

(** The rules of a page: styles.css, then those in its head. *)
Definition page_css measure document : list rule := styles_css measure document ++ page_rules measure document.

(** A paragraph is shown as a [p] to which the browser applies what its own shape
    says, and for all that is not said there what the shape of its style says. *)
Theorem C86_paragraph : forall measure style document m p st ps ps' up outer prop, mapped document m -> names_fine (children_named "Style" m) ->
  named_node "Paragraph" p = true -> refers "style-id" p (children_named "Style" m) st -> attr "kind" st = Some (zs "paragraph") ->
  refers "parashape-id" p (children_named "ParaShape" m) ps -> refers "parashape-id" st (children_named "ParaShape" m) ps' ->
  exists y rest, show style document up p = y :: rest /\ named_node "p" y = true /\
    cascade (page_css measure document) (element_of y) outer prop =
    first_of [declared (zs prop) (para_declarations measure ps); declared (zs prop) (para_declarations measure ps')].
Proof.
  intros measure style document m p st ps ps' up outer prop M NF Np Rs Kd Rp Rp'. eexists _, _. split; [apply show_paragraph; exact Np|]. split; [reflexivity|].
  apply (paragraph_shown measure document m M NF p st ps ps'); try assumption. unfold attr_is. rewrite Kd. reflexivity.
Qed.
Print Assumptions C86_paragraph.

(** So alignment, margins and indent are those of the paragraph. *)
Theorem C86_paragraph_own : forall measure style document m p st ps ps' up outer, mapped document m -> names_fine (children_named "Style" m) ->
  named_node "Paragraph" p = true -> refers "style-id" p (children_named "Style" m) st -> attr "kind" st = Some (zs "paragraph") ->
  refers "parashape-id" p (children_named "ParaShape" m) ps -> refers "parashape-id" st (children_named "ParaShape" m) ps' ->
  exists y rest, show style document up p = y :: rest /\
    cascade (page_css measure document) (element_of y) outer "text-align" = Some (alignment ps) /\
    cascade (page_css measure document) (element_of y) outer "margin" = Some (measure "margin" ps) /\
    cascade (page_css measure document) (element_of y) outer "text-indent" = Some (measure "text-indent" ps).
Proof. exact own_paragraph. Qed.
Print Assumptions C86_paragraph_own.

(** Each text in a line of a paragraph is a [span] in its [p], with the same
    characters, to which the browser applies what its own character shape says,
    and for all that is not said there what the character shape of the style
    says; the line height is that of the paragraph. *)
Theorem C86_text : forall measure style document m p st ps ps' l x cs cs' lang base up outer, mapped document m -> names_fine (children_named "Style" m) ->
  named_node "Paragraph" p = true -> refers "style-id" p (children_named "Style" m) st -> attr "kind" st = Some (zs "paragraph") ->
  refers "parashape-id" p (children_named "ParaShape" m) ps -> refers "parashape-id" st (children_named "ParaShape" m) ps' ->
  In l (children_named "LineSeg" p) -> In x (children_named "Text" l) ->
  attr "lang" x = Some (zs lang) -> In (lang, base) (languages document) ->
  refers "charshape-id" x (children_named "CharShape" m) cs -> refers "charshape-id" st (children_named "CharShape" m) cs' ->
  exists y rest z, show style document up p = y :: rest /\ In z (kids_of_node y) /\ named_node "span" z = true /\
    page_text z = first_text (kids_of_node x) /\
    forall prop, cascade (page_css measure document) (element_of z) (element_of y :: outer) prop =
    first_of [declared (zs prop) (lang_declarations measure document lang base cs); declared (zs prop) (lang_declarations measure document lang base cs');
              declared (zs prop) (char_declarations cs); declared (zs prop) (char_declarations cs');
              declared (zs prop) (line_declarations measure ps); declared (zs prop) (line_declarations measure ps')].
Proof. exact text_in_paragraph. Qed.
Print Assumptions C86_text.

(** Its colour, size and font are its own; the font is the one with its number
    among those of its language. *)
Theorem C86_text_own : forall measure style document m p st ps ps' l x cs cs' lang j up outer groups g i f face, mapped document m -> names_fine (children_named "Style" m) ->
  named_node "Paragraph" p = true -> refers "style-id" p (children_named "Style" m) st -> attr "kind" st = Some (zs "paragraph") ->
  refers "parashape-id" p (children_named "ParaShape" m) ps -> refers "parashape-id" st (children_named "ParaShape" m) ps' ->
  In l (children_named "LineSeg" p) -> In x (children_named "Text" l) ->
  attr "lang" x = Some (zs lang) -> nth_error languages_in_order j = Some lang ->
  refers "charshape-id" x (children_named "CharShape" m) cs -> refers "charshape-id" st (children_named "CharShape" m) cs' ->
  fonts_by_language m groups -> nth_error groups j = Some g ->
  children_named "FontFace" cs = [face] -> attr lang face = Some (fmt_d (Z.of_nat i)) -> nth_error g i = Some f ->
  exists y rest z, show style document up p = y :: rest /\ In z (kids_of_node y) /\ page_text z = first_text (kids_of_node x) /\
    cascade (page_css measure document) (element_of z) (element_of y :: outer) "color" = Some (value_of "text-color" cs) /\
    cascade (page_css measure document) (element_of z) (element_of y :: outer) "font-size" = Some (measure ("font-size-" ++ lang)%string cs) /\
    cascade (page_css measure document) (element_of z) (element_of y :: outer) "font-family" = Some ([34] ++ value_of "name" f ++ [34] ++ generic_family f).
Proof. exact own_text. Qed.
Print Assumptions C86_text_own.

(** It is bold or italic where its shape or that of the style says so, and
    nowhere else; it is underlined and the like as its shape says. *)
Theorem C86_text_marks : forall measure style document m p st ps ps' l x cs cs' lang base up outer, mapped document m -> names_fine (children_named "Style" m) ->
  named_node "Paragraph" p = true -> refers "style-id" p (children_named "Style" m) st -> attr "kind" st = Some (zs "paragraph") ->
  refers "parashape-id" p (children_named "ParaShape" m) ps -> refers "parashape-id" st (children_named "ParaShape" m) ps' ->
  In l (children_named "LineSeg" p) -> In x (children_named "Text" l) ->
  attr "lang" x = Some (zs lang) -> In (lang, base) (languages document) ->
  refers "charshape-id" x (children_named "CharShape" m) cs -> refers "charshape-id" st (children_named "CharShape" m) cs' ->
  exists y rest z, show style document up p = y :: rest /\ In z (kids_of_node y) /\ page_text z = first_text (kids_of_node x) /\
    (forall b b', attr "bold" cs = Some (zs (if b : bool then "1" else "0")) -> attr "bold" cs' = Some (zs (if b' : bool then "1" else "0")) ->
       cascade (page_css measure document) (element_of z) (element_of y :: outer) "font-weight" = if b || b' then Some (zs "bold") else None) /\
    (forall b b', attr "italic" cs = Some (zs (if b : bool then "1" else "0")) -> attr "italic" cs' = Some (zs (if b' : bool then "1" else "0")) ->
       cascade (page_css measure document) (element_of z) (element_of y :: outer) "font-style" = if b || b' then Some (zs "italic") else None) /\
    (forall v w u k, In (v, w) text_lines -> attr "underline" cs = Some (zs v) -> In (u, k) text_line_styles -> attr "underline-style" cs = Some (zs u) ->
       cascade (page_css measure document) (element_of z) (element_of y :: outer) "text-decoration" = Some (zs w) /\
       cascade (page_css measure document) (element_of z) (element_of y :: outer) "text-decoration-style" = Some (zs k) /\
       cascade (page_css measure document) (element_of z) (element_of y :: outer) "text-decoration-color" = Some (value_of "underline-color" cs)).
Proof. exact marked_text. Qed.
Print Assumptions C86_text_marks.

(** What is written for a border: its width, its kind of line and its colour, for
    all widths and all kinds of line but one. *)
Theorem C86_border_values : forall b v w u k c, In (v, w) border_widths -> attr "width" b = Some (zs v) -> In (u, k) border_lines -> attr "stroke-type" b = Some (zs u) ->
  attr "color" b = Some c -> border_value b = zs w ++ zs " " ++ zs k ++ zs " " ++ c.
Proof. exact border_value_is. Qed.
Print Assumptions C86_border_values.

(** Cells and tables have the borders their border number says, counted from 1. *)
Theorem C86_borders : forall measure style document m x b up outer side, mapped document m -> names_fine (children_named "Style" m) ->
  named_node "TableCell" x = true -> refers1 "borderfill-id" x (children_named "BorderFill" m) b -> In side sides ->
  exists y, show style document up x = [y] /\ named_node "td" y = true /\
    cascade (page_css measure document) (element_of y) outer ("border-" ++ side) = Some (flat_map border_value (border side b)).
Proof. exact cell_borders. Qed.
Print Assumptions C86_borders.
Theorem C86_table_borders : forall measure style document m x t b up outer side, mapped document m -> names_fine (children_named "Style" m) ->
  named_node "TableControl" x = true -> attr "inline" x = Some (zs "0") \/ attr "inline" x = Some (zs "1") ->
  children_named "TableBody" x = [t] -> refers1 "borderfill-id" t (children_named "BorderFill" m) b -> In side sides ->
  exists y, In y (flat_map parts (show style document up x)) /\ named_node "table" y = true /\
    cascade (page_css measure document) (element_of y) outer ("border-" ++ side) = Some (flat_map border_value (border side b)).
Proof. exact table_borders. Qed.
Print Assumptions C86_table_borders.

(** A picture is an [img] whose source is the file of the binary data with its
    number, counted from 1. *)
Theorem C86_pictures : forall style document m up x info b d, mapped document m -> named_node "ShapePicture" x = true -> children_named "PictureInfo" x = [info] ->
  refers1 "bindata-id" info (children_named "BinData" m) b -> named_node "BinData" b = true -> kids_of_node b = [d] -> named_node "BinDataEmbedding" d = true ->
  attr "inline" d <> Some (zs "true") ->
  show style document up x = [html "img" [html_attr "src" (zs "bindata/" ++ value_of "storage-id" d ++ zs "." ++ value_of "ext" d); html_attr "style" (style (x :: up))] []].
Proof. exact picture_file. Qed.
Print Assumptions C86_pictures.

(** Every [p] of a page is a paragraph of the document. *)
Theorem C86_paragraphs : forall style document y, In y (page_elements "p" (body style document)) ->
  exists q, In q (map self (all_nodes document)) /\ named_node "Paragraph" q = true /\ attr "class" y = Some (paragraph_class document q).
Proof. intros style document y I. unfold page_elements in I. apply filter_In in I as [I N]. exact (page_ps style document y I N). Qed.
Print Assumptions C86_paragraphs.

(** If the lines of all paragraphs have only texts and control characters (and
    controls without words) and there are no headers and footers, the text of the
    page is the characters of the texts and of the control characters. *)
Theorem C86_page_text : forall style document, headers document = [] -> footers document = [] ->
  (forall b, In b (flat_map (children_named "BodyText") (filter (named_node "HwpDoc") document)) ->
     Forall (fun k => named_node "SectionDef" k = true /\ only_text k = true) (kids_of_node b)) ->
  flat_map page_text (body style document) =
  flat_map (fun b => flat_map spoken (kids_of_node b)) (flat_map (children_named "BodyText") (filter (named_node "HwpDoc") document)).
Proof. exact body_text. Qed.
Print Assumptions C86_page_text.

(** If moreover the control characters have no characters, it is what hwp5txt
    writes. *)
Theorem C86_same_text : forall style document, headers document = [] -> footers document = [] ->
  (forall b, In b (flat_map (children_named "BodyText") (filter (named_node "HwpDoc") document)) ->
     Forall (fun k => named_node "SectionDef" k = true /\ only_text k = true) (kids_of_node b) /\
     Forall (fun y => attr "char" y = None) (page_elements "ControlChar" (kids_of_node b))) ->
  flat_map page_text (body style document) = root_template document.
Proof. exact body_same_text. Qed.
Print Assumptions C86_same_text.

(** What one would expect and is wrong. *)

(** Text that is not bold in a paragraph whose style is bold is shown bold; the
    same with italics and underlines. *)
Theorem C86_bold_of_style : forall measure style document m p st ps ps' l x cs cs' lang base up outer, mapped document m -> names_fine (children_named "Style" m) ->
  named_node "Paragraph" p = true -> refers "style-id" p (children_named "Style" m) st -> attr "kind" st = Some (zs "paragraph") ->
  refers "parashape-id" p (children_named "ParaShape" m) ps -> refers "parashape-id" st (children_named "ParaShape" m) ps' ->
  In l (children_named "LineSeg" p) -> In x (children_named "Text" l) ->
  attr "lang" x = Some (zs lang) -> In (lang, base) (languages document) ->
  refers "charshape-id" x (children_named "CharShape" m) cs -> refers "charshape-id" st (children_named "CharShape" m) cs' ->
  attr "bold" cs' = Some (zs "1") ->
  exists y rest z, show style document up p = y :: rest /\ In z (kids_of_node y) /\ page_text z = first_text (kids_of_node x) /\
    cascade (page_css measure document) (element_of z) (element_of y :: outer) "font-weight" = Some (zs "bold").
Proof. exact bold_text. Qed.
Print Assumptions C86_bold_of_style.

(** A document: the style Heading is bold and centred; Body is neither.  The
    first paragraph has the shapes of its style Heading, the second has its own,
    with text that is not bold. *)
Definition node (s : string) (attrs : list (string * string)) (kids : list xnode) : xnode :=
  Element (zs s) (map (fun a => (zs (fst a), zs (snd a))) attrs) kids.
Definition faces (ko en : string) : xnode := node "FontFace" [("ko", ko); ("en", en); ("cn", "0"); ("jp", "0"); ("other", "0"); ("symbol", "0"); ("user", "0")] [].
Definition text (lang shape t : string) : xnode := node "Text" [("lang", lang); ("charshape-id", shape)] [Characters (zs t)].
Definition para (st shape : string) (line : list xnode) : xnode := node "Paragraph" [("style-id", st); ("parashape-id", shape)] [node "LineSeg" [] line].
Definition mappings (heading : string) : xnode :=
  node "IdMappings" [("ko-fonts", "2"); ("en-fonts", "2"); ("cn-fonts", "1"); ("jp-fonts", "1"); ("other-fonts", "1"); ("symbol-fonts", "1"); ("user-fonts", "1")]
    [node "BinData" [] [node "BinDataEmbedding" [("storage-id", "BIN0001"); ("ext", "jpg")] []];
     node "BinData" [] [node "BinDataEmbedding" [("storage-id", "BIN0002"); ("ext", "png")] []];
     node "FaceName" [("name", "Batang")] []; node "FaceName" [("name", "Dotum")] []; node "FaceName" [("name", "Times")] [];
     node "FaceName" [("name", "Courier")] [node "Panose1" [("family-type", "2"); ("proportion", "9"); ("serif-style", "2")] []];
     node "FaceName" [("name", "Song")] []; node "FaceName" [("name", "Mincho")] []; node "FaceName" [("name", "Other")] []; node "FaceName" [("name", "Symbol")] [];
     node "FaceName" [("name", "User")] [];
     node "BorderFill" [] [node "Border" [("attribute-name", "top"); ("stroke-type", "none"); ("width", "0.1mm"); ("color", "#000000")] []];
     node "BorderFill" [] [node "Border" [("attribute-name", "left"); ("stroke-type", "solid"); ("width", "0.12mm"); ("color", "#000000")] [];
                           node "Border" [("attribute-name", "top"); ("stroke-type", "long-dash"); ("width", "0.5mm"); ("color", "#ff0000")] []];
     node "CharShape" [("bold", "1"); ("italic", "0"); ("text-color", "#000000")] [faces "0" "0"];
     node "CharShape" [("bold", "0"); ("italic", "1"); ("text-color", "#0000ff"); ("underline", "overline"); ("underline-style", "upper_weighted"); ("underline-color", "#ff00ff")] [faces "1" "1"];
     node "ParaShape" [("align", "center"); ("indent", "0"); ("linespacing-type", "ratio"); ("head-shape", "none"); ("numbering-bullet-id", "0")] [];
     node "ParaShape" [("align", "both"); ("indent", "-400"); ("linespacing-type", "fixed"); ("head-shape", "number"); ("numbering-bullet-id", "1")] [];
     node "Style" [("name", heading); ("kind", "paragraph"); ("parashape-id", "0"); ("charshape-id", "0")] [];
     node "Style" [("name", "Body Text"); ("kind", "paragraph"); ("parashape-id", "1"); ("charshape-id", "1")] []].
Definition first_paragraph : xnode := para "0" "0" [text "ko" "0" "Title"].
Definition second_paragraph : xnode := para "0" "1" [text "en" "1" "plain"; node "FieldHyperLink" [] [text "en" "0" "link"]; text "ko" "0" "bold"].
Definition picture : xnode := node "ShapePicture" [] [node "PictureInfo" [("bindata-id", "2")] []].
Definition document_with (heading : string) (more : list xnode) : list xnode :=
  [node "HwpDoc" [] [node "DocInfo" [] [mappings heading]; node "BodyText" [] [node "SectionDef" [("section-id", "0")] (first_paragraph :: second_paragraph :: more)]]].
Definition measured (s : string) (x : xnode) : list Z := zs s.
Definition styled (path : list xnode) : list Z := [].
(** What the browser applies to the elements of a page, for a property. *)
Fixpoint applied (rules : list rule) (prop : string) (outer : list element) (x : xnode) : list (list Z * option (list Z)) :=
  match x with
  | Characters _ => []
  | Element n _ kids =>
      (if name_is "p" n || name_is "span" n || name_is "td" n then [(page_text x, cascade rules (element_of x) outer prop)] else []) ++
      flat_map (applied rules prop (element_of x :: outer)) kids
  end.
Definition page_of (document : list xnode) (prop : string) : list (list Z * option (list Z)) :=
  flat_map (applied (page_css measured document) prop []) (body styled document).
Definition line (t : string) : list Z := zs t ++ [10].

Example C86_case :
  mapped (document_with "Heading 1" []) (mappings "Heading 1") /\ names_fine (children_named "Style" (mappings "Heading 1")) /\
  (exists groups, fonts_by_language (mappings "Heading 1") groups) /\
  page_of (document_with "Heading 1" []) "text-align" =
    [(line "Title", Some (zs "center")); (zs "Title", None); (line "plainbold", Some (zs "justify")); (zs "plain", None); (zs "bold", None)] /\
  page_of (document_with "Heading 1" []) "color" =
    [(line "Title", None); (zs "Title", Some (zs "#000000")); (line "plainbold", None); (zs "plain", Some (zs "#0000ff")); (zs "bold", Some (zs "#000000"))] /\
  page_of (document_with "Heading 1" []) "font-style" =
    [(line "Title", None); (zs "Title", None); (line "plainbold", None); (zs "plain", Some (zs "italic")); (zs "bold", None)] /\
  page_of (document_with "Heading 1" []) "text-decoration" =
    [(line "Title", None); (zs "Title", None); (line "plainbold", None); (zs "plain", Some (zs "overline")); (zs "bold", None)] /\
  page_of (document_with "Heading 1" []) "text-decoration-style" =
    [(line "Title", None); (zs "Title", None); (line "plainbold", None); (zs "plain", Some (zs "double")); (zs "bold", None)] /\
  page_of (document_with "Heading 1" []) "font-family" =
    [(line "Title", None); (zs "Title", Some ([34] ++ zs "Batang" ++ [34])); (line "plainbold", None);
     (zs "plain", Some ([34] ++ zs "Courier" ++ [34] ++ zs ", monospace")); (zs "bold", Some ([34] ++ zs "Batang" ++ [34]))] /\
  page_of (document_with "Heading 1" [node "TableCell" [("borderfill-id", "2"); ("rowspan", "1"); ("colspan", "1")] [Characters (zs "cell")]]) "border-left" =
    [(line "Title", None); (zs "Title", None); (line "plainbold", None); (zs "plain", None); (zs "bold", None); (zs "cell", Some (zs "1px solid #000000"))] /\
  map (attr "src") (page_elements "img" (body styled (document_with "Heading 1" [picture]))) = [Some (zs "bindata/BIN0002.png")].
Proof.
  split; [|split; [|split]].
  - constructor; try reflexivity; intros s I; repeat (destruct I as [<-|I]; [vm_compute; reflexivity|]); contradiction.
  - split.
    + repeat constructor; cbn; intuition discriminate.
    + repeat constructor.
  - exists (let f := children_named "FaceName" (mappings "Heading 1") in
      [firstn 2 f; firstn 2 (skipn 2 f); firstn 1 (skipn 4 f); firstn 1 (skipn 5 f); firstn 1 (skipn 6 f); firstn 1 (skipn 7 f); firstn 1 (skipn 8 f)]).
    split; [reflexivity|]. split; [reflexivity|]. repeat constructor.
  - repeat split; vm_compute; reflexivity.
Qed.

(** As documents are: columns are defined in the first paragraph, and paragraphs
    end with control characters; the carriage returns are on the page. *)
Definition ended (char : list (string * string)) : xnode := node "ControlChar" (("code", "13") :: char) [].
Definition with_ends (char : list (string * string)) : list xnode :=
  [node "HwpDoc" [] [node "DocInfo" [] [mappings "Heading 1"];
     node "BodyText" [] [node "SectionDef" [("section-id", "0")]
       [para "0" "0" [node "ColumnsDef" [] [node "Column" [] []]; text "ko" "0" "Title"; ended char]; para "0" "1" [text "en" "1" "plain"; ended char]]]]].
Example C86_case_text :
  (forall char b, In b (flat_map (children_named "BodyText") (filter (named_node "HwpDoc") (with_ends char))) ->
     Forall (fun k => named_node "SectionDef" k = true /\ only_text k = true) (kids_of_node b)) /\
  (forall b, In b (flat_map (children_named "BodyText") (filter (named_node "HwpDoc") (with_ends []))) ->
     Forall (fun y => attr "char" y = None) (page_elements "ControlChar" (kids_of_node b))) /\
  flat_map page_text (body styled (with_ends [("char", "^")])) = line "Title^" ++ line "plain^" /\
  flat_map page_text (body styled (with_ends [])) = line "Title" ++ line "plain" /\ root_template (with_ends [("char", "^")]) = line "Title" ++ line "plain".
Proof.
  split; [|split; [|repeat split; vm_compute; reflexivity]].
  - intros char b [<-|[]]. repeat constructor.
  - intros b [<-|[]]. repeat constructor.
Qed.

(** In it, the text that is not bold is bold, and so is not shown as it should be. *)
Theorem C86_bold_refuted :
  page_of (document_with "Heading 1" []) "font-weight" =
    [(line "Title", None); (zs "Title", Some (zs "bold")); (line "plainbold", None); (zs "plain", Some (zs "bold")); (zs "bold", Some (zs "bold"))] /\
  attr "bold" (nth 1 (children_named "CharShape" (mappings "Heading 1")) (Characters [])) = Some (zs "0").
Proof. split; vm_compute; reflexivity. Qed.
Print Assumptions C86_bold_refuted.

(** Styles without an English name, or with one that is not a name in CSS: their
    paragraphs are shown without alignment, their text without colour and font. *)
Theorem C86_names_needed_refuted :
  (forall heading, In heading [""; "2nd Heading"; "Heading (1)"] ->
    firstn 2 (page_of (document_with heading []) "text-align") = [(line "Title", None); (zs "Title", None)] /\
    firstn 2 (page_of (document_with heading []) "color") = [(line "Title", None); (zs "Title", None)]).
Proof. intros heading I. repeat (destruct I as [<-|I]; [split; vm_compute; reflexivity|]). contradiction. Qed.
Print Assumptions C86_names_needed_refuted.

(** A paragraph with a number has the class of a bullet: the kind of its head is
    not looked at. *)
Theorem C86_bullet_refuted :
  map (attr "class") (page_elements "p" (body styled (document_with "Heading 1" []))) = [Some (zs "Heading-1"); Some (zs "Heading-1 parashape-1 Bullet-1")] /\
  attr "head-shape" (nth 1 (children_named "ParaShape" (mappings "Heading 1")) (Characters [])) = Some (zs "number").
Proof. split; vm_compute; reflexivity. Qed.
Print Assumptions C86_bullet_refuted.

(** The text of a hyperlink is not on the page, though hwp5txt writes it. *)
Theorem C86_fields_refuted :
  flat_map page_text (body styled (document_with "Heading 1" [])) = line "Title" ++ line "plainbold" /\
  root_template (document_with "Heading 1" []) = line "Title" ++ line "plainlinkbold".
Proof. split; vm_compute; reflexivity. Qed.
Print Assumptions C86_fields_refuted.

(** A long dashed border gets a style that does not exist. *)
Theorem C86_dash_refuted :
  last (page_of (document_with "Heading 1" [node "TableCell" [("borderfill-id", "2"); ("rowspan", "1"); ("colspan", "1")] [Characters (zs "cell")]]) "border-top") ([], None) =
    (zs "cell", Some (zs "2px dahsed #ff0000")).
Proof. vm_compute. reflexivity. Qed.
Print Assumptions C86_dash_refuted.

(** All headers of the document are shown in each of its sections. *)
Theorem C86_headers_refuted :
  let header s := node "Header" [] [node "HeaderParagraphList" [] [para "0" "0" [text "ko" "0" s]]] in
  flat_map page_text (body styled
    [node "HwpDoc" [] [node "DocInfo" [] [mappings "Heading 1"];
       node "BodyText" [] [node "SectionDef" [("section-id", "0")] [para "0" "0" [header "one"; text "ko" "0" "a"]];
                           node "SectionDef" [("section-id", "1")] [para "0" "0" [header "two"; text "ko" "0" "b"]]]]]) =
  line "one" ++ line "two" ++ line "a" ++ line "one" ++ line "two" ++ line "b".
Proof. vm_compute. reflexivity. Qed.
Print Assumptions C86_headers_refuted.
