(** C87: the OpenDocument texts of hwp5odt. *)
From Coq Require Import ZArith String List Bool Lia.
From Verif Require Import Base Model_Text Model_XmlText Model_Plaintext Model_Html Spec_Text Spec_Html Proof_Html Proof_Html3 Model_Opendoc Spec_Opendoc Proof_Opendoc Proof_Opendoc2 Proof_Opendoc3 Proof_Opendoc4 Proof_Opendoc5 Proof_Opendoc6 Proof_Opendoc7 Proof_Opendoc8.
Import ListNotations.
Open Scope string_scope.
Open Scope list_scope.
Open Scope Z_scope.

(** ** C87 *)

Implicit Type measure : string -> xnode -> list Z.
Implicit Type geometry : list xnode -> list (list Z * list Z).

(** The styles of the files hwp5odt writes. *)
Definition written_styles measure geometry document : list xnode := file_styles (content_xml measure geometry document) (styles_xml measure document).
(** All elements of the text it writes. *)
Definition written_text measure geometry document : list xnode := flat_map parts (file_text (content_xml measure geometry document)).

(** A paragraph is written as a [text:p] whose style gives it what its own shape
    says, and for all that is not said there what the shape of its style says. *)
Theorem C87_paragraph : forall measure geometry document m d b p st ps ps', one_text document m d b ->
  shown b p -> named_node "Paragraph" p = true -> refers "style-id" p (children_named "Style" m) st ->
  refers "parashape-id" p (children_named "ParaShape" m) ps -> refers "parashape-id" st (children_named "ParaShape" m) ps' ->
  exists y, In y (written_text measure geometry document) /\ named_node "text:p" y = true /\ (simple_text p = true -> opendoc_text y = apply_templates p) /\ forall prop,
    paragraph_property (written_styles measure geometry document) y prop =
    first_of [lookup (zs prop) (para_attributes measure ps); if attr_is "new-page" "1" p then lookup (zs prop) [puts "fo:break-before" "page"] else None;
              lookup (zs prop) (para_attributes measure ps')].
Proof.
  intros measure geometry document m d b p st ps ps' T H N Rs Rp Rp'. destruct (shown_in_file measure geometry document m d b T p H) as (up & I).
  destruct (write_paragraph geometry document up p N) as (rest & E). rewrite E in I. apply incl_cons_inv in I as [I _]. eexists. split; [exact I|]. split; [reflexivity|].
  split; [intros O; exact (simple_paragraph geometry document up p _ rest N O E)|].
  exact (paragraph_says measure geometry document m d b T p st ps ps' (shown_in_document document m d b T "Paragraph" p H N) Rs Rp Rp').
Qed.
Print Assumptions C87_paragraph.

(** So alignment, margins, indent, line height and page break are those of the paragraph. *)
Theorem C87_paragraph_own : forall measure geometry document m d b p st ps ps', one_text document m d b ->
  shown b p -> named_node "Paragraph" p = true -> refers "style-id" p (children_named "Style" m) st ->
  refers "parashape-id" p (children_named "ParaShape" m) ps -> refers "parashape-id" st (children_named "ParaShape" m) ps' ->
  exists y, In y (written_text measure geometry document) /\ named_node "text:p" y = true /\ (simple_text p = true -> opendoc_text y = apply_templates p) /\
    paragraph_property (written_styles measure geometry document) y "fo:text-align" = Some (alignment ps) /\
    (forall prop k, In (prop, k) lengths -> paragraph_property (written_styles measure geometry document) y prop = Some (measure k ps)) /\
    (forall t prop k, In (t, (prop, k)) line_heights -> attr "linespacing-type" ps = Some (zs t) ->
       paragraph_property (written_styles measure geometry document) y prop = Some (measure k ps)) /\
    (forall f : bool, attr "new-page" p = Some (zs (if f then "1" else "0")) ->
       paragraph_property (written_styles measure geometry document) y "fo:break-before" = if f then Some (zs "page") else None).
Proof.
  intros measure geometry document m d b p st ps ps' T H N Rs Rp Rp'. destruct (C87_paragraph measure geometry document m d b p st ps ps' T H N Rs Rp Rp') as (y & E & Ny & O & Q).
  exists y. split; [exact E|]. split; [exact Ny|]. split; [exact O|]. split; [|split; [|split]].
  - rewrite Q, align_value_is. reflexivity.
  - intros prop k J. rewrite Q, (length_is measure prop k ps J). reflexivity.
  - intros t prop k J A. rewrite Q, (line_height_is measure t prop k ps J A). reflexivity.
  - intros f A. rewrite Q, !no_break. unfold attr_is. rewrite A. destruct f; reflexivity.
Qed.
Print Assumptions C87_paragraph_own.

(** Each text in a line of a paragraph that has only texts before it in its line
    is a [text:span] in the [text:p] of the paragraph, with the same characters,
    which has what its own character shape says, and for all that is not said
    there what the character shape of the style says. *)
Theorem C87_text : forall measure geometry document m d b p st l x cs cs' i j, one_text document m d b ->
  shown b p -> named_node "Paragraph" p = true -> refers "style-id" p (children_named "Style" m) st ->
  nth_error (children_named "LineSeg" p) i = Some l -> after_texts l x j ->
  refers "charshape-id" x (children_named "CharShape" m) cs -> refers "charshape-id" st (children_named "CharShape" m) cs' ->
  exists y z, In y (written_text measure geometry document) /\ named_node "text:p" y = true /\ In z (kids_of_node y) /\ named_node "text:span" z = true /\
    opendoc_text z = first_text (kids_of_node x) /\ forall prop,
    text_property (written_styles measure geometry document) y z prop =
    first_of [attr prop (text_properties measure document cs); attr prop (text_properties measure document cs')].
Proof.
  intros measure geometry document m d b p st l x cs cs' i j T H N Rs Nl A Rc Rc'. destruct (shown_in_file measure geometry document m d b T p H) as (up & I).
  destruct (text_written measure geometry document m d b T p st (shown_in_document document m d b T "Paragraph" p H N) Rs l x cs cs' i j Nl A Rc Rc' up) as (y & rest & z & E & Q).
  exists y, z. destruct (write_paragraph geometry document up p N) as (rest' & E'). rewrite E' in E. injection E as E _. rewrite E' in I. apply incl_cons_inv in I as [I _].
  split; [rewrite <- E; exact I|]. split; [rewrite <- E; reflexivity|]. exact Q.
Qed.
Print Assumptions C87_text.

(** So its sizes are its own, its Korean font is the one with its number, and its
    lines are its own; it is bold if it or the style is, and so with italics. *)
Theorem C87_text_own : forall measure geometry document m d b p st l x cs cs' i j, one_text document m d b ->
  shown b p -> named_node "Paragraph" p = true -> refers "style-id" p (children_named "Style" m) st ->
  nth_error (children_named "LineSeg" p) i = Some l -> after_texts l x j ->
  refers "charshape-id" x (children_named "CharShape" m) cs -> refers "charshape-id" st (children_named "CharShape" m) cs' ->
  exists y z, In y (written_text measure geometry document) /\ named_node "text:p" y = true /\ In z (kids_of_node y) /\ opendoc_text z = first_text (kids_of_node x) /\
    (forall prop k, In (prop, k) sizes -> text_property (written_styles measure geometry document) y z prop = Some (measure k cs)) /\
    (forall groups g face i f, fonts_by_language m groups -> nth_error groups 0 = Some g -> children_named "FontFace" cs = [face] ->
       attr "ko" face = Some (fmt_d (Z.of_nat i)) -> nth_error g i = Some f ->
       text_property (written_styles measure geometry document) y z "style:font-name-asian" = Some (value_of "name" f)) /\
    (forall v w u n k, In (v, w) text_lines -> attr "underline" cs = Some (zs v) -> In (u, (n, k)) text_strokes -> attr "underline-style" cs = Some (zs u) ->
       text_property (written_styles measure geometry document) y z ("style:text-" ++ w ++ "-type") = Some (zs n) /\
       text_property (written_styles measure geometry document) y z ("style:text-" ++ w ++ "-style") = Some (zs k) /\
       text_property (written_styles measure geometry document) y z ("style:text-" ++ w ++ "-color") = Some (value_of "underline-color" cs)) /\
    (forall v w, In (v, w) text_lines -> attr "underline" cs <> Some (zs v) ->
       text_property (written_styles measure geometry document) y z ("style:text-" ++ w ++ "-type") = Some (zs "none")) /\
    (forall prop f f', In prop ["fo:font-weight"; "style:font-weight-asian"; "style:font-weight-complex"] ->
       attr "bold" cs = Some (zs (if f : bool then "1" else "0")) -> attr "bold" cs' = Some (zs (if f' : bool then "1" else "0")) ->
       text_property (written_styles measure geometry document) y z prop = if f || f' then Some (zs "bold") else None) /\
    (forall prop f f', In prop ["fo:font-style"; "style:font-style-asian"; "style:font-style-complex"] ->
       attr "italic" cs = Some (zs (if f : bool then "1" else "0")) -> attr "italic" cs' = Some (zs (if f' : bool then "1" else "0")) ->
       text_property (written_styles measure geometry document) y z prop = if f || f' then Some (zs "italic") else None).
Proof.
  intros measure geometry document m d b p st l x cs cs' i j T H N Rs Nl A Rc Rc'.
  destruct (C87_text measure geometry document m d b p st l x cs cs' i j T H N Rs Nl A Rc Rc') as (y & z & E & Ny & Iz & _ & Ot & Q).
  exists y, z. split; [exact E|]. split; [exact Ny|]. split; [exact Iz|]. split; [exact Ot|]. repeat split.
  - intros prop k J. rewrite Q, (size_is measure document prop k cs J). reflexivity.
  - intros groups g face i' f G0 G1 F K Nf. rewrite Q, (said_font measure document m groups g cs face i' f (ot_mapped _ _ _ _ T) G0 G1 F K Nf). reflexivity.
  - rewrite Q. destruct (said_line measure document v w u n k cs H0 H1 H2 H3) as (-> & _ & _). reflexivity.
  - rewrite Q. destruct (said_line measure document v w u n k cs H0 H1 H2 H3) as (_ & -> & _). reflexivity.
  - rewrite Q. destruct (said_line measure document v w u n k cs H0 H1 H2 H3) as (_ & _ & ->). reflexivity.
  - intros v w J U. rewrite Q, (said_no_line measure document v w cs J U). reflexivity.
  - intros prop f f' J B B'. rewrite Q, (said_bold measure document prop cs f J B), (said_bold measure document prop cs' f' J B'). destruct f, f'; reflexivity.
  - intros prop f f' J B B'. rewrite Q, (said_italic measure document prop cs f J B), (said_italic measure document prop cs' f' J B'). destruct f, f'; reflexivity.
Qed.
Print Assumptions C87_text_own.

(** A table is written with as many rows, each with as many cells, in the same
    order.  Cells span as much, have the same padding, borders and background, and
    the same text as in hwp5txt if there is only text in them. *)
Theorem C87_tables : forall measure geometry document m d b x t, one_text document m d b ->
  shown b x -> named_node "TableControl" x = true -> children_named "TableBody" x = [t] ->
  exists y, In y (written_text measure geometry document) /\ named_node "table:table" y = true /\
    (forall k, attr "cellspacing" t = Some (fmt_d (Z.of_nat k)) ->
       table_property (written_styles measure geometry document) y "table:border-model" = Some (zs (if Nat.eqb k 0 then "collapsing" else "separating"))) /\
    (attr "width-relto" x = Some (zs "absolute") -> table_property (written_styles measure geometry document) y "style:width" = Some (measure "width" x) /\
       table_property (written_styles measure geometry document) y "fo:margin-left" = Some (measure "table-margin-left" x) /\
       table_property (written_styles measure geometry document) y "fo:margin-right" = Some (measure "table-margin-right" x)) /\
    table_property (written_styles measure geometry document) y "fo:margin-top" = Some (measure "table-margin-top" x) /\
    table_property (written_styles measure geometry document) y "fo:margin-bottom" = Some (measure "table-margin-bottom" x) /\
    List.length (children_named "table:table-row" y) = List.length (children_named "TableRow" t) /\
    forall i r, nth_error (children_named "TableRow" t) i = Some r -> exists yr, nth_error (children_named "table:table-row" y) i = Some yr /\
      List.length (kids_of_node yr) = List.length (children_named "TableCell" r) /\
      forall j c, nth_error (children_named "TableCell" r) j = Some c -> exists yc, nth_error (kids_of_node yr) j = Some yc /\ named_node "table:table-cell" yc = true /\
        attr "table:number-columns-spanned" yc = Some (value_of "colspan" c) /\ attr "table:number-rows-spanned" yc = Some (value_of "rowspan" c) /\
        (forallb simple_text (kids_of_node c) = true -> flat_map opendoc_text (kids_of_node yc) = flat_map apply_templates (kids_of_node c)) /\
        (forall side, In side sides -> cell_property (written_styles measure geometry document) yc ("fo:padding-" ++ side) = Some (measure ("padding-" ++ side)%string c)) /\
        (forall bf, refers1 "borderfill-id" c (children_named "BorderFill" m) bf ->
           (forall side o, In side sides -> border side bf = [o] ->
              cell_property (written_styles measure geometry document) yc ("fo:border-" ++ side) =
              Some (value_of "width" o ++ zs " " ++ value_of "stroke-type" o ++ zs " " ++ value_of "color" o)) /\
           (forall f, children_named "FillColorPattern" bf = [f] ->
              cell_property (written_styles measure geometry document) yc "fo:background-color" = Some (value_of "background-color" f)) /\
           (children_named "FillColorPattern" bf = [] -> cell_property (written_styles measure geometry document) yc "fo:background-color" = None)).
Proof.
  intros measure geometry document m d b x t T H N Et. destruct (shown_in_file measure geometry document m d b T x H) as (up & I). pose proof (shown_in_text b "TableControl" x H N) as It.
  destruct (table_written geometry document b up x t It Et) as (y & E & Ny & Nm & Rows). rewrite E in I. apply incl_cons_inv in I as [I _]. exists y.
  split; [exact I|]. split; [exact Ny|]. destruct (table_margins measure x) as (M1 & M2 & M3). split; [|split; [|split; [|split; [|split]]]].
  - intros k K. unfold written_styles. rewrite (table_says measure geometry document m d b T x y _ It Nm). exact (table_model measure x t k Et K).
  - intros K. unfold written_styles. rewrite !(table_says measure geometry document m d b T x y _ It Nm). split; [exact (table_width measure x K)|]. exact (M3 K).
  - unfold written_styles. rewrite (table_says measure geometry document m d b T x y _ It Nm). exact M1.
  - unfold written_styles. rewrite (table_says measure geometry document m d b T x y _ It Nm). exact M2.
  - rewrite Rows. rewrite children_filter. exact (counted_length _ _ (kids_of_node t) 1).
  - intros i r Nr. exists (row_of geometry document up x t (1 + Z.of_nat i) r). split; [|split].
    + rewrite Rows, nth_counted, <- children_filter, Nr. reflexivity.
    + rewrite children_filter. exact (counted_length _ _ (kids_of_node r) 1).
    + intros j c Nc.
      assert (Says : forall prop, cell_property (file_styles (content_xml measure geometry document) (styles_xml measure document)) (cell_of geometry document up x t r (1 + Z.of_nat i) (1 + Z.of_nat j) c) prop =
                       says_itself (style_of_cell measure document [] c) "style:table-cell-properties" prop) by (intros prop; apply (cell_says measure geometry document m d b T x t r c i j _ prop It Et Nr Nc); reflexivity).
      exists (cell_of geometry document up x t r (1 + Z.of_nat i) (1 + Z.of_nat j) c).
      split; [unfold row_of; cbn [elem kids_of_node]; rewrite nth_counted, <- children_filter, Nc; reflexivity|]. split; [reflexivity|]. split; [reflexivity|]. split; [reflexivity|]. split; [|split].
      * intros S1. cbn [cell_of elem kids_of_node]. rewrite opendoc_nested. apply flat_map_ext_in. intros k K. apply write_simple. rewrite forallb_forall in S1. exact (S1 k K).
      * intros side Is. unfold written_styles. rewrite Says. exact (cell_padding measure document c side Is).
      * intros bf B. unfold written_styles. split; [|split].
        -- intros side o Is O. rewrite Says. exact (cell_border measure document m d b T c bf side o B Is O).
        -- intros f F. rewrite Says. rewrite (cell_background measure geometry document m d b T c bf _ B F); [reflexivity|cbn; lia].
        -- intros F. rewrite Says. rewrite (cell_background measure geometry document m d b T c bf _ B F); [reflexivity|cbn; lia].
Qed.
Print Assumptions C87_tables.

(** Groups, pictures, rectangles and lines are drawn with their own fill and outline. *)
Theorem C87_drawings : forall measure geometry document m d b x kind name, one_text document m d b ->
  shown b x -> named_node "ShapeComponent" x = true -> In (kind, name) drawings -> attr "chid" x = Some (zs kind) ->
  exists y, In y (written_text measure geometry document) /\ named_node name y = true /\
    (forall f, attr "fill-colorpattern" x = Some (zs "1") -> children_named "FillColorPattern" x = [f] ->
       drawing_property (written_styles measure geometry document) y "draw:fill" = Some (zs "solid") /\
       drawing_property (written_styles measure geometry document) y "draw:fill-color" = Some (value_of "background-color" f)) /\
    (attr "fill-colorpattern" x = Some (zs "0") -> drawing_property (written_styles measure geometry document) y "draw:fill" = Some (zs "none")) /\
    (forall l, children_named "BorderLine" x = [l] ->
       drawing_property (written_styles measure geometry document) y "svg:stroke-color" = Some (value_of "color" l) /\
       drawing_property (written_styles measure geometry document) y "svg:stroke-width" = Some (measure "stroke-width" l)).
Proof.
  intros measure geometry document m d b x kind name T H N K A. destruct (shown_in_file measure geometry document m d b T x H) as (up & I).
  destruct (drawn measure geometry document m d b T up x kind name (shown_in_text b "ShapeComponent" x H N) K A) as (y & E & Q). rewrite E in I. apply incl_cons_inv in I as [I _].
  exists y. split; [exact I|exact Q].
Qed.
Print Assumptions C87_drawings.

(** Drawings are placed as the control they are in says. *)
Theorem C87_places : forall measure geometry document m d b x o rest kind name, one_text document m d b ->
  shown b x -> named_node "ShapeComponent" x = true -> In (kind, name) drawings -> attr "chid" x = Some (zs kind) ->
  In (x :: o :: rest) (all_nodes document) -> named_node "GShapeObjectControl" o = true ->
  exists y, In y (written_text measure geometry document) /\ named_node name y = true /\
    (forall side, In side sides -> drawing_property (written_styles measure geometry document) y ("fo:margin-" ++ side) = Some (measure ("shape-margin-" ++ side)%string o)) /\
    (attr "inline" o = Some (zs "0") ->
       (forall a v prop w, In ((a, v), (prop, w)) places -> attr a o = Some (zs v) -> drawing_property (written_styles measure geometry document) y prop = Some (zs w)) /\
       (forall side w, attr "flow" o = Some (zs "float") -> In (side, w) wraps -> attr "text-side" o = Some (zs side) ->
          drawing_property (written_styles measure geometry document) y "style:wrap" = Some (zs w)) /\
       (attr "halign" o = Some (zs "center") -> attr "x" o = Some (zs "0") -> drawing_property (written_styles measure geometry document) y "style:horizontal-pos" = Some (zs "center"))) /\
    (attr "inline" o = Some (zs "1") -> drawing_property (written_styles measure geometry document) y "style:vertical-rel" = Some (zs "baseline")) /\
    (forall l s w, children_named "BorderLine" x = [l] -> In (s, w) drawing_strokes -> attr "stroke" l = Some (zs s) -> drawing_property (written_styles measure geometry document) y "draw:stroke" = Some (zs w)).
Proof.
  intros measure geometry document m d b x o rest kind name T H N K A P No. destruct (shown_in_file measure geometry document m d b T x H) as (up & I).
  destruct (write_shape geometry document up x kind name K N A) as (attrs & kids & W). rewrite W in I. apply incl_cons_inv in I as [I _]. eexists. split; [exact I|].
  set (y := elem name (put "draw:style-name" (shape_name x) :: attrs) kids) in *.
  assert (Q : forall prop, drawing_property (written_styles measure geometry document) y prop = lookup (zs prop) (placement measure o ++ fill x ++ outline measure x))
    by (intros prop; apply (placed_says measure geometry document m d b T x o rest y prop (shown_in_text b "ShapeComponent" x H N) P No); reflexivity).
  split; [unfold y; cbn [named_node elem]; apply name_is_spec; reflexivity|]. split; [|split; [|split]].
  - intros side S1. rewrite Q. exact (place_margin measure o side _ S1).
  - intros L. split; [|split].
    + intros a v prop w S1 E. rewrite Q. exact (place_of measure o a v prop w _ L S1 E).
    + intros side w F S1 E. rewrite Q. exact (place_wrap measure o side w _ L F S1 E).
    + intros E X. rewrite Q. exact (place_center measure o _ L E X).
  - intros L. rewrite Q. exact (proj1 (place_inline measure o _ L)).
  - intros l s w B S1 E. rewrite Q, lookup_app. rewrite place_no_stroke. exact (stroke_of measure x l s w B S1 E).
Qed.
Print Assumptions C87_places.

(** Footnotes and endnotes are notes with their number and their text. *)
Theorem C87_notes : forall measure geometry document m d b x kind class, one_text document m d b ->
  shown b x -> In (kind, class) [("FootNote", "footnote"); ("EndNote", "endnote")] -> named_node kind x = true ->
  exists y citation inside, In y (written_text measure geometry document) /\ named_node "text:note" y = true /\ attr "text:note-class" y = Some (zs class) /\
    kids_of_node y = [citation; inside] /\ named_node "text:note-citation" citation = true /\ opendoc_text citation = value_of "number" x /\ named_node "text:note-body" inside = true /\
    (forallb simple_text (flat_map (children_named "Paragraph") (children_named "ListHeader" x)) = true ->
       flat_map opendoc_text (kids_of_node inside) = flat_map apply_templates (flat_map (children_named "Paragraph") (children_named "ListHeader" x))).
Proof.
  intros measure geometry document m d b x kind class T H K N. destruct (shown_in_file measure geometry document m d b T x H) as (up & I).
  destruct (note_written geometry document up x kind class K N) as (y & c & i & E & Q). rewrite E in I. apply incl_cons_inv in I as [I _]. exists y, c, i. split; [exact I|exact Q].
Qed.
Print Assumptions C87_notes.

(** The fonts of a document are declared in styles.xml. *)
Theorem C87_fonts : forall measure document m d b f, one_text document m d b -> In f (children_named "FaceName" m) -> exists y,
  In y (declared_fonts (value_of "name" f) (styles_xml measure document)) /\ attr "svg:font-family" y = Some (zs "'" ++ value_of "name" f ++ zs "'") /\
  forall p k, children_named "Panose1" f = [p] -> attr "serif-style" p = Some (fmt_d (Z.of_nat k)) -> attr "style:font-family-generic" y = Some (zs (if Nat.ltb k 11 then "roman" else "swiss")).
Proof. exact font_declared. Qed.
Print Assumptions C87_fonts.

(** The picture in a frame is the data it refers to. *)
Theorem C87_pictures : forall measure geometry document m d b x pic info bd e, one_text document m d b ->
  shown b x -> named_node "ShapeComponent" x = true -> attr "chid" x = Some (zs "$pic") -> children_named "ShapePicture" x = [pic] ->
  children_named "PictureInfo" pic = [info] -> refers1 "bindata-id" info (children_named "BinData" m) bd -> attr "storage" bd = Some (zs "embedding") ->
  children_named "BinDataEmbedding" bd = [e] -> attr "inline" e <> Some (zs "true") ->
  exists y i, In y (written_text measure geometry document) /\ kids_of_node y = [i] /\ named_node "draw:image" i = true /\
    attr "xlink:href" i = Some (zs "bindata/" ++ value_of "storage-id" e ++ zs "." ++ value_of "ext" e).
Proof.
  intros measure geometry document m d b x pic info bd e T H N A P F R S1 B L. destruct (shown_in_file measure geometry document m d b T x H) as (up & I).
  destruct (picture geometry document m d b T up x pic info bd e N A P F R S1 B L) as (y & i & E & Q). rewrite E in I. apply incl_cons_inv in I as [I _].
  exists y, i. split; [exact I|exact Q].
Qed.
Print Assumptions C87_pictures.

(** Each section has a layout of its pages, of their size and margins. *)
Theorem C87_pages : forall measure document m d b s pd k, one_text document m d b ->
  Forall (fun s => exists k, attr "section-id" s = Some (fmt_d (Z.of_nat k))) (children_named "SectionDef" b) ->
  NoDup (map (attr "section-id") (children_named "SectionDef" b)) -> In s (children_named "SectionDef" b) -> attr "section-id" s = Some (fmt_d (Z.of_nat k)) ->
  children_named "PageDef" s = [pd] ->
  exists lay mas, page_layouts (zs "PageLayout-" ++ fmt_d (Z.of_nat (S k))) (styles_xml measure document) = [lay] /\
    master_pages (zs "MasterPage-" ++ fmt_d (Z.of_nat (S k))) (styles_xml measure document) = [mas] /\
    attr "style:page-layout-name" mas = Some (zs "PageLayout-" ++ fmt_d (Z.of_nat (S k))) /\
    (forall side, In side sides -> says_itself lay "style:page-layout-properties" ("fo:margin-" ++ side) = Some (measure (side ++ "-offset")%string pd)) /\
    (attr "orientation" pd = Some (zs "portrait") -> says_itself lay "style:page-layout-properties" "fo:page-width" = Some (measure "width" pd) /\
       says_itself lay "style:page-layout-properties" "fo:page-height" = Some (measure "height" pd)) /\
    (attr "orientation" pd = Some (zs "landscape") -> says_itself lay "style:page-layout-properties" "fo:page-width" = Some (measure "height" pd) /\
       says_itself lay "style:page-layout-properties" "fo:page-height" = Some (measure "width" pd)).
Proof. intros measure document m d b s pd k T F D I A P. exact (page_of_section measure document m d b T s pd k F D I A P). Qed.
Print Assumptions C87_pages.

(** The first paragraph of a section that begins a page begins a page of the
    layout of its section. *)
Theorem C87_section_page : forall measure geometry document m d b p c s rest st k, one_text document m d b ->
  shown b p -> In (p :: c :: s :: rest) (all_nodes document) -> named_node "Paragraph" p = true -> named_node "SectionDef" s = true ->
  attr "new-section" p = Some (zs "1") -> attr "new-page" p = Some (zs "1") -> attr "section-id" s = Some (fmt_d (Z.of_nat k)) -> refers "style-id" p (children_named "Style" m) st ->
  exists y o, In y (written_text measure geometry document) /\ (simple_text p = true -> opendoc_text y = apply_templates p) /\
    styles_named "paragraph" (value_of "text:style-name" y) (written_styles measure geometry document) = [o] /\
    attr "style:master-page-name" o = Some (zs "MasterPage-" ++ fmt_d (Z.of_nat (S k))).
Proof.
  intros measure geometry document m d b p c s rest st k T H P N Ns A A' K R. destruct (shown_in_file measure geometry document m d b T p H) as (up & I).
  destruct (section_page measure geometry document m d b p c s rest st k up T P N Ns A A' K R) as (y & r & o & E & Q). rewrite E in I. apply incl_cons_inv in I as [I _].
  exists y, o. split; [exact I|]. split; [intros O; exact (simple_paragraph geometry document up p y r N O E)|exact Q].
Qed.
Print Assumptions C87_section_page.

(** All styles that are used by paragraphs, tables, cells and drawings are there, once. *)
Theorem C87_defined : forall measure geometry document m d b, one_text document m d b ->
  Forall (fun p => exists st, refers "style-id" p (children_named "Style" m) st) (nodes_named_in "Paragraph" document) ->
  forall y, In y (written_text measure geometry document) ->
    (named_node "text:p" y = true -> List.length (styles_named "paragraph" (value_of "text:style-name" y) (written_styles measure geometry document)) = 1%nat) /\
    (named_node "table:table" y = true -> List.length (styles_named "table" (value_of "table:style-name" y) (written_styles measure geometry document)) = 1%nat) /\
    (named_node "table:table-cell" y = true -> List.length (styles_named "table-cell" (value_of "table:style-name" y) (written_styles measure geometry document)) = 1%nat) /\
    (existsb (fun s => named_node s y) (map snd drawings) = true -> List.length (styles_named "graphic" (value_of "draw:style-name" y) (written_styles measure geometry document)) = 1%nat).
Proof. intros measure geometry document m d b T W y I. exact (all_defined measure geometry document m d b T W y I). Qed.
Print Assumptions C87_defined.

(** In sections with only text, the paragraphs are written in order, each with its
    text and its shape. *)
Theorem C87_in_order : forall measure geometry document m d b, one_text document m d b -> Forall (fun s => simple_text s = true) (children_named "SectionDef" b) ->
  Forall2 (fun p y => named_node "text:p" y = true /\ opendoc_text y = apply_templates p /\
      forall st ps ps', refers "style-id" p (children_named "Style" m) st -> refers "parashape-id" p (children_named "ParaShape" m) ps -> refers "parashape-id" st (children_named "ParaShape" m) ps' ->
        forall prop, paragraph_property (written_styles measure geometry document) y prop =
          first_of [lookup (zs prop) (para_attributes measure ps); if attr_is "new-page" "1" p then lookup (zs prop) [puts "fo:break-before" "page"] else None;
                    lookup (zs prop) (para_attributes measure ps')])
    (page_elements "Paragraph" (children_named "SectionDef" b)) (page_elements "text:p" (file_text (content_xml measure geometry document))).
Proof.
  intros measure geometry document m d b T H. pose proof (in_order measure geometry document m d b T H) as F.
  eapply (Forall2_in_left _ _ _ _ F). intros p y Ip (N & S1 & O). split; [exact N|]. split; [exact O|]. intros st ps ps' Rs Rp Rp' prop.
  unfold paragraph_property. rewrite S1. exact (paragraph_says measure geometry document m d b T p st ps ps' (section_paragraph document m d b T p Ip) Rs Rp Rp' prop).
Qed.
Print Assumptions C87_in_order.

(** Documents with only text are written with the text hwp5txt writes. *)
Theorem C87_same_text : forall measure geometry document m d b, one_text document m d b ->
  Forall (fun k => named_node "SectionDef" k = true /\ simple_text k = true) (kids_of_node b) ->
  flat_map opendoc_text (file_text (content_xml measure geometry document)) = root_template document.
Proof. exact text_same. Qed.
Print Assumptions C87_same_text.

(** With --document, one file is written with the same text, in which the styles
    come to the same. *)
Theorem C87_one_file : forall measure geometry document m d b, one_text document m d b ->
  (forall s, In s ["TableControl"; "ShapeComponent"] -> nodes_named_in s document = in_text s b) ->
  file_text (document_xml measure geometry document) = file_text (content_xml measure geometry document) /\
  forall y z prop, let styles := file_styles (document_xml measure geometry document) (document_xml measure geometry document) in
    paragraph_property styles y prop = paragraph_property (written_styles measure geometry document) y prop /\
    text_property styles y z prop = text_property (written_styles measure geometry document) y z prop /\
    table_property styles y prop = table_property (written_styles measure geometry document) y prop /\
    cell_property styles y prop = cell_property (written_styles measure geometry document) y prop /\
    drawing_property styles y prop = drawing_property (written_styles measure geometry document) y prop.
Proof.
  intros measure geometry document m d b T H. split; [exact (flat_text measure geometry document m d b T)|]. intros y z prop styles.
  assert (E : forall n family name kind prop, effective n styles family name kind prop = effective n (written_styles measure geometry document) family name kind prop)
    by exact (flat_effective measure geometry document m d b T H).
  unfold paragraph_property, text_property, table_property, cell_property, drawing_property. rewrite !E. split; [reflexivity|]. split; [|split; [|split]; reflexivity].
  destruct (attr "text:style-name" z); [rewrite E|]; reflexivity.
Qed.
Print Assumptions C87_one_file.

(** The colours of texts are not written: whatever colour a text has in its
    shape, none is in the files. *)
Theorem C87_color_refuted : forall measure geometry document m d b p st l x cs cs' i j, one_text document m d b ->
  shown b p -> named_node "Paragraph" p = true -> refers "style-id" p (children_named "Style" m) st ->
  nth_error (children_named "LineSeg" p) i = Some l -> after_texts l x j ->
  refers "charshape-id" x (children_named "CharShape" m) cs -> refers "charshape-id" st (children_named "CharShape" m) cs' ->
  exists y z, In y (written_text measure geometry document) /\ In z (kids_of_node y) /\ opendoc_text z = first_text (kids_of_node x) /\
    text_property (written_styles measure geometry document) y z "fo:color" = None.
Proof.
  intros measure geometry document m d b p st l x cs cs' i j T H N Rs Nl A Rc Rc'.
  destruct (C87_text measure geometry document m d b p st l x cs cs' i j T H N Rs Nl A Rc Rc') as (y & z & E & Ny & Iz & _ & Ot & Q).
  exists y, z. split; [exact E|]. split; [exact Iz|]. split; [exact Ot|]. rewrite Q, !no_color. reflexivity.
Qed.
Print Assumptions C87_color_refuted.

(** *** Documents *)
Definition node (s : string) (attrs : list (string * string)) (kids : list xnode) : xnode :=
  Element (zs s) (map (fun a => (zs (fst a), zs (snd a))) attrs) kids.
Definition faces (ko en : string) : xnode := node "FontFace" [("ko", ko); ("en", en); ("cn", "0"); ("jp", "0"); ("other", "0"); ("symbol", "0"); ("user", "0")] [].
Definition text (shape t : string) : xnode := node "Text" [("lang", "ko"); ("charshape-id", shape)] [Characters (zs t)].
Definition para (id st shape page : string) (line : list xnode) : xnode :=
  node "Paragraph" [("paragraph-id", id); ("style-id", st); ("parashape-id", shape); ("new-page", page); ("new-section", page)] [node "LineSeg" [] line].
Definition mappings (first second : string) : xnode :=
  node "IdMappings" [("ko-fonts", "2"); ("en-fonts", "2"); ("cn-fonts", "1"); ("jp-fonts", "1"); ("other-fonts", "1"); ("symbol-fonts", "1"); ("user-fonts", "1")]
    [node "BinData" [("storage", "embedding")] [node "BinDataEmbedding" [("storage-id", "BIN0001"); ("ext", "jpg")] []];
     node "BinData" [("storage", "embedding")] [node "BinDataEmbedding" [("storage-id", "BIN0002"); ("ext", "png")] []];
     node "FaceName" [("name", "Batang")] []; node "FaceName" [("name", "Dotum")] []; node "FaceName" [("name", "Times")] []; node "FaceName" [("name", "Courier")] [];
     node "FaceName" [("name", "Song")] []; node "FaceName" [("name", "Mincho")] []; node "FaceName" [("name", "Other")] []; node "FaceName" [("name", "Symbol")] [];
     node "FaceName" [("name", "User")] [];
     node "BorderFill" [] [];
     node "BorderFill" [] [node "Border" [("attribute-name", "left"); ("stroke-type", "solid"); ("width", "0.12mm"); ("color", "#000000")] [];
                           node "Border" [("attribute-name", "top"); ("stroke-type", "long-dash"); ("width", "0.5mm"); ("color", "#ff0000")] [];
                           node "FillColorPattern" [("background-color", "#eeeeee")] []];
     node "CharShape" [("bold", "1"); ("italic", "0"); ("text-color", "#000000"); ("underline", "none"); ("underline-style", "solid")] [faces "0" "0"];
     node "CharShape" [("bold", "0"); ("italic", "1"); ("text-color", "#0000ff"); ("underline", "overline"); ("underline-style", "upper_weighted"); ("underline-color", "#ff00ff")] [faces "1" "1"];
     node "ParaShape" [("align", "center"); ("linespacing-type", "ratio")] [];
     node "ParaShape" [("align", "both"); ("linespacing-type", "minimum")] [];
     node "Style" [("local-name", first); ("name", "Heading"); ("kind", "paragraph"); ("parashape-id", "0"); ("charshape-id", "0"); ("next-style-id", "0")] [];
     node "Style" [("local-name", second); ("name", "Body"); ("kind", "paragraph"); ("parashape-id", "1"); ("charshape-id", "1"); ("next-style-id", "1")] []].
Definition table (id : string) (rows : list xnode) : xnode :=
  node "TableControl" [("table-id", id); ("width-relto", "absolute")] [node "TableBody" [("cols", "2"); ("cellspacing", "0")] rows].
Definition cell (span fill : string) (kids : list xnode) : xnode := node "TableCell" [("colspan", span); ("rowspan", "1"); ("borderfill-id", fill)] kids.
Definition shape (id kind : string) (kids : list xnode) : xnode :=
  node "GShapeObjectControl" [("inline", "1")] [node "ShapeComponent" [("shape-id", id); ("chid", kind); ("fill-colorpattern", "0")] (node "BorderLine" [("color", "#0000ff")] [] :: kids)].
Definition page : xnode := node "PageDef" [("orientation", "landscape")] [].
Definition document_of (first second : string) (paragraphs : list xnode) : list xnode :=
  [node "HwpDoc" [] [node "DocInfo" [] [mappings first second];
     node "BodyText" [] [node "SectionDef" [("section-id", "0")] (page :: [node "ColumnSet" [] paragraphs])]]].
Definition measured (s : string) (x : xnode) : list Z := zs s.
Definition placed (path : list xnode) : list (list Z * list Z) := [].
(** Texts of elements and what they have, in a written text. *)
Definition has_property (document : list xnode) (name prop : string) : list (list Z * option (list Z)) :=
  map (fun y => (opendoc_text y, (if name_is "text:p" (zs name) then paragraph_property else if name_is "table:table-cell" (zs name) then cell_property else drawing_property)
                                   (written_styles measured placed document) y prop))
    (page_elements name (file_text (content_xml measured placed document))).
Definition spans_have (document : list xnode) (prop : string) : list (list Z * option (list Z)) :=
  flat_map (fun y => map (fun z => (opendoc_text z, text_property (written_styles measured placed document) y z prop)) (children_named "text:span" y))
    (page_elements "text:p" (file_text (content_xml measured placed document))).
Definition line (t : string) : list Z := zs t ++ [10].

Definition whole : list xnode :=
  document_of "Heading (1)" "Body"
    [para "0" "0" "0" "1" [text "0" "Title"];
     para "1" "0" "1" "0" [text "1" "plain"; text "0" "bold"; table "0" [node "TableRow" [] [cell "2" "2" [para "2" "1" "1" "0" [text "1" "cell"]]]]];
     para "3" "1" "1" "0" [shape "0" "$rec" [node "TextboxParagraphList" [] [para "4" "1" "0" "0" [text "1" "box"]]];
                           shape "1" "$pic" [node "ShapePicture" [] [node "PictureInfo" [("bindata-id", "2")] []]]]].
Definition body_of (document : list xnode) : xnode := hd (Characters []) (flat_map (children_named "BodyText") document).

Lemma numbered_of : forall a s document ks, map (attr a) (nodes_named_in s document) = map (fun k => Some (fmt_d (Z.of_nat k))) ks ->
  NoDup (map (fun k => Some (fmt_d (Z.of_nat k))) ks) -> numbered_by a s document.
Proof.
  intros a s document ks E N. split; [|rewrite E; exact N]. apply Forall_forall. intros x I. apply (in_map (attr a)) in I. rewrite E in I. apply in_map_iff in I as (k & E' & _).
  exists k. symmetry. exact E'.
Qed.
Ltac no_dup := vm_compute; repeat constructor; cbn; intuition discriminate.
Ltac is_mapped := constructor; try reflexivity; intros s I; repeat (destruct I as [<-|I]; [vm_compute; reflexivity|]); contradiction.
Ltac is_numbered ks := apply (numbered_of _ _ _ ks); [vm_compute; reflexivity|no_dup].
Ltac is_one ps ts ss :=
  constructor; [is_mapped|reflexivity|reflexivity|reflexivity|constructor; [is_numbered ps|is_numbered ts|is_numbered ss]|vm_compute; repeat constructor|
                split; [no_dup|vm_compute; repeat constructor; cbn; intuition discriminate]].

Example C87_case :
  one_text whole (mappings "Heading (1)" "Body") (hd (Characters []) whole) (body_of whole) /\
  has_property whole "text:p" "fo:text-align" =
    [(line "Title", Some (zs "center")); (line "plainbold", Some (zs "justify")); (line "cell", Some (zs "justify")); (line "box" ++ [10], Some (zs "justify")); (line "box", Some (zs "center"))] /\
  has_property whole "text:p" "fo:break-before" = [(line "Title", Some (zs "page")); (line "plainbold", None); (line "cell", None); (line "box" ++ [10], None); (line "box", None)] /\
  spans_have whole "style:font-name-asian" =
    [(zs "Title", Some (zs "Batang")); (zs "plain", Some (zs "Dotum")); (zs "bold", Some (zs "Batang")); (zs "cell", Some (zs "Dotum")); (zs "box", Some (zs "Dotum"))] /\
  spans_have whole "fo:font-style" =
    [(zs "Title", None); (zs "plain", Some (zs "italic")); (zs "bold", None); (zs "cell", Some (zs "italic")); (zs "box", Some (zs "italic"))] /\
  spans_have whole "style:text-overline-type" =
    [(zs "Title", Some (zs "none")); (zs "plain", Some (zs "double")); (zs "bold", Some (zs "none")); (zs "cell", Some (zs "double")); (zs "box", Some (zs "double"))] /\
  has_property whole "table:table-cell" "fo:border-left" = [(line "cell", Some (zs "0.12mm solid #000000"))] /\
  has_property whole "table:table-cell" "fo:background-color" = [(line "cell", Some (zs "#eeeeee"))] /\
  has_property whole "draw:rect" "svg:stroke-color" = [(line "box", Some (zs "#0000ff"))] /\
  has_property whole "draw:rect" "draw:fill" = [(line "box", Some (zs "none"))] /\
  map (attr "xlink:href") (page_elements "draw:image" (file_text (content_xml measured placed whole))) = [Some (zs "bindata/BIN0002.png")] /\
  map (fun x => says_itself x "style:page-layout-properties" "fo:page-width") (page_layouts (zs "PageLayout-1") (styles_xml measured whole)) = [Some (zs "height")].
Proof. split; [is_one [0; 1; 2; 3; 4]%nat [0]%nat [0; 1]%nat|]. repeat split; vm_compute; reflexivity. Qed.
Example C87_case_one_file :
  (forall s, In s ["TableControl"; "ShapeComponent"] -> nodes_named_in s whole = in_text s (body_of whole)) /\
  map (fun y => (opendoc_text y, cell_property (file_styles (document_xml measured placed whole) (document_xml measured placed whole)) y "fo:border-left"))
    (page_elements "table:table-cell" (file_text (document_xml measured placed whole))) = [(line "cell", Some (zs "0.12mm solid #000000"))].
Proof. split; [intros s [<-|[<-|[]]]; vm_compute; reflexivity|vm_compute; reflexivity]. Qed.

(** As documents are: columns are defined in the first paragraph, and paragraphs
    end with control characters. *)
Definition with_ends : list xnode :=
  document_of "Title" "Body" [para "0" "0" "0" "0" [node "ColumnsDef" [] [node "Column" [] []]; text "0" "first"; node "ControlChar" [("code", "13"); ("char", "^")] []];
                              para "1" "1" "1" "0" [text "1" "second"; node "ControlChar" [("code", "13"); ("char", "^")] []]].
Example C87_case_ends :
  Forall (fun k => named_node "SectionDef" k = true /\ simple_text k = true) (kids_of_node (body_of with_ends)) /\
  flat_map opendoc_text (file_text (content_xml measured placed with_ends)) = line "first" ++ line "second".
Proof. split; [repeat constructor|vm_compute; reflexivity]. Qed.

(** A text after a control character has the style of another text of its line. *)
Definition after_tab : list xnode :=
  document_of "Title" "Body" [para "0" "0" "0" "0" [text "1" "one"; node "ControlChar" [("code", "9")] []; text "1" "two"; text "0" "three"; text "1" "four"]].
Theorem C87_after_control_refuted :
  one_text after_tab (mappings "Title" "Body") (hd (Characters []) after_tab) (body_of after_tab) /\
  map (attr "charshape-id") (nodes_named_in "Text" after_tab) = [Some (zs "1"); Some (zs "1"); Some (zs "0"); Some (zs "1")] /\
  spans_have after_tab "style:font-name-asian" =
    [(zs "one", Some (zs "Dotum")); (zs "two", Some (zs "Batang")); (zs "three", Some (zs "Batang")); (zs "four", Some (zs "Batang"))].
Proof. split; [is_one [0]%nat (@nil nat) (@nil nat)|]. split; vm_compute; reflexivity. Qed.
Print Assumptions C87_after_control_refuted.

(** The fonts of Latin texts are taken from the Korean ones. *)
Theorem C87_latin_font_refuted : exists groups g f,
  fonts_by_language (mappings "Heading (1)" "Body") groups /\ nth_error groups 1 = Some g /\ nth_error g 1 = Some f /\ value_of "name" f = zs "Courier" /\
  attr "en" (hd (Characters []) (children_named "FontFace" (nth 1 (children_named "CharShape" (mappings "Heading (1)" "Body")) (Characters [])))) = Some (zs "1") /\
  spans_have whole "style:font-name" =
    [(zs "Title", Some (zs "Batang")); (zs "plain", Some (zs "Dotum")); (zs "bold", Some (zs "Batang")); (zs "cell", Some (zs "Dotum")); (zs "box", Some (zs "Dotum"))].
Proof.
  exists (let f := children_named "FaceName" (mappings "Heading (1)" "Body") in
      [firstn 2 f; firstn 2 (skipn 2 f); firstn 1 (skipn 4 f); firstn 1 (skipn 5 f); firstn 1 (skipn 6 f); firstn 1 (skipn 7 f); firstn 1 (skipn 8 f)]).
  eexists _, _. split; [split; [reflexivity|]; split; [reflexivity|]; repeat constructor|]. split; [reflexivity|]. split; [reflexivity|]. split; [reflexivity|]. split; [reflexivity|].
  vm_compute. reflexivity.
Qed.
Print Assumptions C87_latin_font_refuted.

(** The fonts that are used in content.xml are not declared there. *)
Theorem C87_fonts_refuted :
  flat_map (fun x => match attr "style:font-name-asian" x with Some f => [f] | None => [] end) (flat_map parts (content_xml measured placed whole)) = [zs "Dotum"] /\
  declared_fonts (zs "Dotum") (content_xml measured placed whole) = [].
Proof. split; vm_compute; reflexivity. Qed.
Print Assumptions C87_fonts_refuted.

(** A text that is not bold is bold if the style of its paragraph is. *)
Theorem C87_not_bold_refuted :
  map (fun x => attr "bold" (nth (Z.to_nat (match number_of "charshape-id" x with Some k => k | None => 0 end)) (children_named "CharShape" (mappings "Heading (1)" "Body")) x)) (nodes_named_in "Text" whole) =
    [Some (zs "1"); Some (zs "0"); Some (zs "1"); Some (zs "0"); Some (zs "0")] /\
  spans_have whole "fo:font-weight" = [(zs "Title", Some (zs "bold")); (zs "plain", Some (zs "bold")); (zs "bold", Some (zs "bold")); (zs "cell", None); (zs "box", None)].
Proof. split; vm_compute; reflexivity. Qed.
Print Assumptions C87_not_bold_refuted.

(** Line heights of the style stay where the paragraph has another kind of line
    spacing, that is not written. *)
Theorem C87_line_height_refuted : exists p,
  In p (nodes_named_in "Paragraph" whole) /\ refers "parashape-id" p (children_named "ParaShape" (mappings "Heading (1)" "Body")) (node "ParaShape" [("align", "both"); ("linespacing-type", "minimum")] []) /\
  apply_templates p = zs "plainbold" ++ table_text ++ [10] /\
  nth_error (has_property whole "text:p" "fo:line-height") 1 = Some (line "plainbold", Some (zs "line-ratio")).
Proof.
  eexists. split; [|split; [|split]]; cycle 3.
  - vm_compute. reflexivity.
  - right. left. reflexivity.
  - exists 1%nat. split; reflexivity.
  - reflexivity.
Qed.
Print Assumptions C87_line_height_refuted.

(** The pages of a section have its layout only if its first paragraph has a style
    of its own. *)
Definition no_new_page : list xnode :=
  document_of "Title" "Body"
    [node "Paragraph" [("paragraph-id", "0"); ("style-id", "0"); ("parashape-id", "0"); ("new-page", "0"); ("new-section", "1")] [node "LineSeg" [] [text "0" "first"]]].
Theorem C87_section_page_refuted :
  one_text no_new_page (mappings "Title" "Body") (hd (Characters []) no_new_page) (body_of no_new_page) /\
  map (attr "new-section") (nodes_named_in "Paragraph" no_new_page) = [Some (zs "1")] /\
  List.length (master_pages (zs "MasterPage-1") (styles_xml measured no_new_page)) = 1%nat /\
  Forall (fun s => attr "style:master-page-name" s = None) (written_styles measured placed no_new_page).
Proof. split; [is_one [0]%nat (@nil nat) (@nil nat)|]. split; [reflexivity|]. split; [reflexivity|]. vm_compute. repeat constructor. Qed.
Print Assumptions C87_section_page_refuted.

(** Styles with different names have the same name in the file. *)
Theorem C87_style_names_refuted :
  let document := document_of "A (1)" "A [1]" [para "0" "0" "0" "0" [text "0" "x"]] in
  NoDup (map (value_of "local-name") (children_named "Style" (mappings "A (1)" "A [1]"))) /\
  map (fun y => List.length (styles_named "paragraph" (value_of "text:style-name" y) (written_styles measured placed document))) (page_elements "text:p" (file_text (content_xml measured placed document))) = [2%nat].
Proof. split; [no_dup|vm_compute; reflexivity]. Qed.
Print Assumptions C87_style_names_refuted.

(** Borders of some kinds are written in words that are not those of OpenDocument. *)
Theorem C87_border_words_refuted :
  has_property whole "table:table-cell" "fo:border-top" = [(line "cell", Some (zs "0.5mm long-dash #ff0000"))] /\ ~ In "long-dash" xsl_border_styles.
Proof. split; [vm_compute; reflexivity|]. cbn. intuition discriminate. Qed.
Print Assumptions C87_border_words_refuted.

(** Rows have fewer cells than the table has columns if cells span more than one. *)
Theorem C87_covered_cells_refuted :
  map (attr "table:number-columns-repeated") (page_elements "table:table-column" (file_text (content_xml measured placed whole))) = [Some (zs "2")] /\
  map (attr "table:number-columns-spanned") (page_elements "table:table-cell" (file_text (content_xml measured placed whole))) = [Some (zs "2")] /\
  map cells_in_row (page_elements "table:table-row" (file_text (content_xml measured placed whole))) = [1%nat].
Proof. split; [|split]; vm_compute; reflexivity. Qed.
Print Assumptions C87_covered_cells_refuted.

(** Texts in fields are not written, though hwp5txt writes them. *)
Theorem C87_same_text_refuted :
  let document := document_of "Title" "Body" [para "0" "0" "0" "0" [text "0" "see "; node "FieldHyperLink" [] [text "0" "here"]]] in
  one_text document (mappings "Title" "Body") (hd (Characters []) document) (body_of document) /\
  flat_map opendoc_text (file_text (content_xml measured placed document)) = line "see " /\ root_template document = line "see here".
Proof. split; [is_one [0]%nat (@nil nat) (@nil nat)|]. split; vm_compute; reflexivity. Qed.
Print Assumptions C87_same_text_refuted.

(** A style with the name of one that is always written is there twice. *)
Theorem C87_reserved_names_refuted :
  let document := document_of "Caption" "Body" [para "0" "0" "0" "0" [text "0" "x"]] in
  map (fun y => List.length (styles_named "paragraph" (value_of "text:style-name" y) (written_styles measured placed document))) (page_elements "text:p" (file_text (content_xml measured placed document))) = [2%nat].
Proof. vm_compute. reflexivity. Qed.
Print Assumptions C87_reserved_names_refuted.

(** A footnote, and a picture beside the text. *)
Definition noted : list xnode :=
  document_of "Title" "Body"
    [para "0" "0" "0" "0"
       [text "0" "see"; node "FootNote" [("number", "1")] [node "ListHeader" [] [para "1" "1" "1" "0" [text "1" "there"]]];
        node "GShapeObjectControl" [("inline", "0"); ("flow", "float"); ("text-side", "larger"); ("vrelto", "paper"); ("hrelto", "column"); ("halign", "right"); ("valign", "middle")]
          [node "ShapeComponent" [("shape-id", "0"); ("chid", "$pic"); ("fill-colorpattern", "0")]
             [node "BorderLine" [("color", "#0000ff"); ("stroke", "dotted")] []; node "ShapePicture" [] [node "PictureInfo" [("bindata-id", "1")] []]]]]].
Example C87_case_notes :
  one_text noted (mappings "Title" "Body") (hd (Characters []) noted) (body_of noted) /\
  map (fun y => (attr "text:note-class" y, opendoc_text y)) (page_elements "text:note" (file_text (content_xml measured placed noted))) = [(Some (zs "footnote"), zs "1" ++ line "there")] /\
  map (fun prop => has_property noted "draw:frame" prop) ["style:wrap"; "style:vertical-rel"; "style:horizontal-rel"; "style:horizontal-pos"; "style:vertical-pos"; "fo:margin-top"; "draw:stroke"] =
    map (fun v => [([], Some (zs v))]) ["biggest"; "page"; "page-content"; "right"; "middle"; "shape-margin-top"; "dash"].
Proof. split; [is_one [0; 1]%nat (@nil nat) [0]%nat|]. split; vm_compute; reflexivity. Qed.
