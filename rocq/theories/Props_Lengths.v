(** Properties of the lengths of hwp5odt and hwp5html (C89). *)
From Coq Require Import ZArith QArith Qabs String List Bool Lia.
From Verif Require Import Base Model_Text Model_XmlText Model_Plaintext Model_Html Spec_Html Proof_Html Proof_Html3 Props_Html Model_Opendoc Spec_Opendoc Props_Opendoc
  Model_Lengths Spec_Lengths Proof_Lengths Proof_Lengths2 Proof_Lengths3.
Import ListNotations.
Open Scope string_scope.
Open Scope list_scope.
Open Scope Z_scope.

(** ** hwp5odt *)

(** The indent and the margins of a paragraph and the space of its lines are half
    the numbers in its shape, in HWP units; lines after the first are moved by a
    negative indent. *)
Theorem C89_paragraph : forall show other geometry document m d b p st ps ps', prints show -> one_text document m d b ->
  shown b p -> named_node "Paragraph" p = true -> refers "style-id" p (children_named "Style" m) st ->
  refers "parashape-id" p (children_named "ParaShape" m) ps -> refers "parashape-id" st (children_named "ParaShape" m) ps' ->
  exists y, In y (written_text (odt_measure show other) geometry document) /\ named_node "text:p" y = true /\ (simple_text p = true -> opendoc_text y = apply_templates p) /\
    let value := paragraph_property (written_styles (odt_measure show other) geometry document) y in
    (forall n, int_attr 32 "indent" ps n -> value_says (value "fo:text-indent") "pt" (points (half n)) exactly) /\
    (forall side n, In side ["right"; "top"; "bottom"] -> int_attr 32 ("doubled-margin-" ++ side) ps n -> value_says (value ("fo:margin-" ++ side)%string) "pt" (points (half n)) exactly) /\
    (forall n i, int_attr 32 "doubled-margin-left" ps n -> int_attr 32 "indent" ps i -> value_says (value "fo:margin-left") "pt" (points (half (n - Z.min 0 i))) exactly) /\
    (forall n, attr "linespacing-type" ps = Some (zs "ratio") -> int_attr 28 "linespacing" ps n -> value_says (value "fo:line-height") "%" (inject_Z n) (6 # 1000000)) /\
    (forall n, attr "linespacing-type" ps = Some (zs "fixed") -> int_attr 32 "linespacing" ps n -> value_says (value "fo:line-height") "pt" (points (half n)) exactly) /\
    (forall n, attr "linespacing-type" ps = Some (zs "spaceonly") -> int_attr 32 "linespacing" ps n -> value_says (value "style:line-spacing") "pt" (points (half n) / 2) exactly).
Proof.
  intros sh ot geometry document m d b p st ps ps' P T H N Rs Rp Rp'.
  destruct (C87_paragraph_own (odt_measure sh ot) geometry document m d b p st ps ps' T H N Rs Rp Rp') as (y & I & Ny & O & _ & L & LH & _).
  exists y. split; [exact I|]. split; [exact Ny|]. split; [exact O|]. cbv zeta. split; [|split; [|split; [|split; [|split]]]].
  - intros n A. eexists. split; [apply (L _ "text-indent"); listed|]. exact (odt_pt_says sh _ ps n P A).
  - intros side n S A. exists (odt_measure sh ot ("margin-" ++ side)%string ps). split.
    + apply L. repeat (destruct S as [<-|S]; [listed|]). contradiction.
    + repeat (destruct S as [<-|S]; [exact (odt_pt_says sh _ ps n P A)|]). contradiction.
  - intros n i A B. eexists. split; [apply (L _ "margin-left"); listed|]. exact (odt_margin_left_says sh ps n i P A B).
  - intros n K A. eexists. split; [apply (LH "ratio" _ "line-ratio"); [listed|exact K]|]. exact (number_says sh "%" _ ps n P A).
  - intros n K A. eexists. split; [apply (LH "fixed" _ "line-fixed"); [listed|exact K]|]. exact (odt_pt_says sh _ ps n P A).
  - intros n K A. eexists. split; [apply (LH "spaceonly" _ "line-space"); [listed|exact K]|]. exact (odt_space_says sh _ ps n P A).
Qed.
Print Assumptions C89_paragraph.

(** The size of a text is the base size of its character shape times the relative
    size for its language: English for Latin, Korean for Asian letters. *)
Theorem C89_text : forall show other geometry document m d b p st l x cs cs' i j, prints show -> one_text document m d b ->
  shown b p -> named_node "Paragraph" p = true -> refers "style-id" p (children_named "Style" m) st ->
  nth_error (children_named "LineSeg" p) i = Some l -> after_texts l x j ->
  refers "charshape-id" x (children_named "CharShape" m) cs -> refers "charshape-id" st (children_named "CharShape" m) cs' ->
  exists y z, In y (written_text (odt_measure show other) geometry document) /\ named_node "text:p" y = true /\ In z (kids_of_node y) /\ opendoc_text z = first_text (kids_of_node x) /\
    forall prop lang size r, In (prop, lang) [("fo:font-size", "en"); ("style:font-size-asian", "ko"); ("style:font-size-complex", "other")] ->
      int_attr 31 "basesize" cs size -> int_below 8 "RelativeSize" lang cs r ->
      value_says (text_property (written_styles (odt_measure show other) geometry document) y z prop) "pt" (points (percent (inject_Z r) (inject_Z size))) (2 # 1000000).
Proof.
  intros sh ot geometry document m d b p st l x cs cs' i j P T H N Rs Nl A Rc Rc'.
  destruct (C87_text_own (odt_measure sh ot) geometry document m d b p st l x cs cs' i j T H N Rs Nl A Rc Rc') as (y & z & I & Ny & Iz & O & Q & _).
  exists y, z. split; [exact I|]. split; [exact Ny|]. split; [exact Iz|]. split; [exact O|]. intros prop lang size r J B R.
  exists (odt_measure sh ot ("font-size-" ++ lang)%string cs). split.
  - apply Q. repeat (destruct J as [J|J]; [injection J as <- <-; listed|]). contradiction.
  - repeat (destruct J as [J|J]; [injection J as <- <-; exact (size_says sh _ cs size r P B R)|]). contradiction.
Qed.
Print Assumptions C89_text.

(** A page has the width, height and margins of its section, up to half a hundredth
    of a centimetre; width and height are exchanged on wide pages. *)
Theorem C89_pages : forall show other document m d b s pd k, prints show -> one_text document m d b ->
  Forall (fun s => exists k, attr "section-id" s = Some (fmt_d (Z.of_nat k))) (children_named "SectionDef" b) ->
  NoDup (map (attr "section-id") (children_named "SectionDef" b)) -> In s (children_named "SectionDef" b) -> attr "section-id" s = Some (fmt_d (Z.of_nat k)) ->
  children_named "PageDef" s = [pd] ->
  exists lay mas, page_layouts (zs "PageLayout-" ++ fmt_d (Z.of_nat (S k))) (styles_xml (odt_measure show other) document) = [lay] /\
    master_pages (zs "MasterPage-" ++ fmt_d (Z.of_nat (S k))) (styles_xml (odt_measure show other) document) = [mas] /\
    attr "style:page-layout-name" mas = Some (zs "PageLayout-" ++ fmt_d (Z.of_nat (S k))) /\
    let value := says_itself lay "style:page-layout-properties" in
    (forall side n, In side sides -> int_attr 32 (side ++ "-offset") pd n -> value_says (value ("fo:margin-" ++ side)%string) "cm" (centimetres (inject_Z n)) hundredth) /\
    (forall w h, attr "orientation" pd = Some (zs "portrait") -> int_attr 32 "width" pd w -> int_attr 32 "height" pd h ->
       value_says (value "fo:page-width") "cm" (centimetres (inject_Z w)) hundredth /\ value_says (value "fo:page-height") "cm" (centimetres (inject_Z h)) hundredth) /\
    (forall w h, attr "orientation" pd = Some (zs "landscape") -> int_attr 32 "width" pd w -> int_attr 32 "height" pd h ->
       value_says (value "fo:page-width") "cm" (centimetres (inject_Z h)) hundredth /\ value_says (value "fo:page-height") "cm" (centimetres (inject_Z w)) hundredth).
Proof.
  intros sh ot document m d b s pd k P T F D I A Pd. destruct (C87_pages (odt_measure sh ot) document m d b s pd k T F D I A Pd) as (lay & mas & E1 & E2 & E3 & Ms & Po & La).
  assert (Nd : named_node "PageDef" pd = true).
  { assert (J : In pd (children_named "PageDef" s)) by (rewrite Pd; left; reflexivity). rewrite children_filter in J. apply filter_In in J. exact (proj2 J). }
  assert (W : forall w, int_attr 32 "width" pd w -> says_length (odt_measure sh ot "width" pd) "cm" (centimetres (inject_Z w)) hundredth).
  { intros w B. unfold odt_measure, choose. cbn [find fst String.eqb Ascii.eqb Bool.eqb]. cbv beta iota. rewrite Nd. exact (odt_cm_says sh _ pd w P B). }
  exists lay, mas. split; [exact E1|]. split; [exact E2|]. split; [exact E3|]. cbv zeta. split; [|split].
  - intros side n S B. rewrite (Ms side S). eexists. split; [reflexivity|].
    repeat (destruct S as [<-|S]; [exact (odt_cm_says sh _ pd n P B)|]). contradiction.
  - intros w h O B C. destruct (Po O) as [-> ->]. split; eexists; (split; [reflexivity|]); [exact (W w B)|exact (odt_cm_says sh _ pd h P C)].
  - intros w h O B C. destruct (La O) as [-> ->]. split; eexists; (split; [reflexivity|]); [exact (odt_cm_says sh _ pd h P C)|exact (W w B)].
Qed.
Print Assumptions C89_pages.

(** Tables have their width and margins, cells their padding, up to half a hundredth
    of a millimetre. *)
Theorem C89_tables : forall show other geometry document m d b x t, prints show -> one_text document m d b ->
  shown b x -> named_node "TableControl" x = true -> children_named "TableBody" x = [t] ->
  exists y, In y (written_text (odt_measure show other) geometry document) /\ named_node "table:table" y = true /\
    (let value := table_property (written_styles (odt_measure show other) geometry document) y in
     (forall n, attr "width-relto" x = Some (zs "absolute") -> int_attr 32 "width" x n -> value_says (value "style:width") "mm" (millimetres (inject_Z n)) hundredth) /\
     (forall side n, In side ["left"; "right"] -> attr "width-relto" x = Some (zs "absolute") -> int_attr 32 ("margin-" ++ side) x n ->
        value_says (value ("fo:margin-" ++ side)%string) "mm" (millimetres (inject_Z n)) hundredth) /\
     (forall side n, In side ["top"; "bottom"] -> int_attr 32 ("margin-" ++ side) x n -> value_says (value ("fo:margin-" ++ side)%string) "mm" (millimetres (inject_Z n)) hundredth)) /\
    forall i r j c, nth_error (children_named "TableRow" t) i = Some r -> nth_error (children_named "TableCell" r) j = Some c ->
      exists yr yc, nth_error (children_named "table:table-row" y) i = Some yr /\ nth_error (kids_of_node yr) j = Some yc /\
        forall side n, In side sides -> int_attr 32 ("padding-" ++ side) c n ->
          value_says (cell_property (written_styles (odt_measure show other) geometry document) yc ("fo:padding-" ++ side)) "mm" (millimetres (inject_Z n)) hundredth.
Proof.
  intros sh ot geometry document m d b x t P T H N Et.
  destruct (C87_tables (odt_measure sh ot) geometry document m d b x t T H N Et) as (y & I & Ny & _ & W & Mt & Mb & _ & Rows).
  assert (Np : named_node "PageDef" x = false).
  { destruct x as [n a ks|]; [|reflexivity]. cbn [named_node] in *. unfold name_is in *. destruct (list_eq_dec Z.eq_dec n (zs "TableControl")) as [->|]; [reflexivity|discriminate]. }
  exists y. split; [exact I|]. split; [exact Ny|]. split; [cbv zeta; split; [|split]|].
  - intros n R B. destruct (W R) as (-> & _ & _). eexists. split; [reflexivity|]. unfold odt_measure, choose. cbn [find fst String.eqb Ascii.eqb Bool.eqb]. cbv beta iota.
    rewrite Np. exact (odt_mm_says sh _ x n P B).
  - intros side n S R B. destruct (W R) as (_ & Ml & Mr). destruct S as [<-|[<-|[]]]; eexists; (split; [exact Ml || exact Mr|]); exact (odt_mm_says sh _ x n P B).
  - intros side n S B. destruct S as [<-|[<-|[]]]; eexists; (split; [exact Mt || exact Mb|]); exact (odt_mm_says sh _ x n P B).
  - intros i r j c Nr Nc. destruct (Rows i r Nr) as (yr & Er & _ & Cells). destruct (Cells j c Nc) as (yc & Ec & _ & _ & _ & _ & Pad & _).
    exists yr, yc. split; [exact Er|]. split; [exact Ec|]. intros side n S B. rewrite (Pad side S). eexists. split; [reflexivity|].
    repeat (destruct S as [<-|S]; [exact (odt_mm_says sh _ c n P B)|]). contradiction.
Qed.
Print Assumptions C89_tables.

(** Drawings have the margins of the control they are in, and lines of their width. *)
Theorem C89_drawings : forall show other geometry document m d b x o rest kind name, prints show -> one_text document m d b ->
  shown b x -> named_node "ShapeComponent" x = true -> In (kind, name) drawings -> attr "chid" x = Some (zs kind) ->
  In (x :: o :: rest) (all_nodes document) -> named_node "GShapeObjectControl" o = true ->
  exists y, In y (written_text (odt_measure show other) geometry document) /\ named_node name y = true /\
    forall side n, In side sides -> int_attr 32 ("margin-" ++ side) o n ->
      value_says (drawing_property (written_styles (odt_measure show other) geometry document) y ("fo:margin-" ++ side)) "mm" (millimetres (inject_Z n)) hundredth.
Proof.
  intros sh ot geometry document m d b x o rest kind name P T H N K A Pa No.
  destruct (C87_places (odt_measure sh ot) geometry document m d b x o rest kind name T H N K A Pa No) as (y & I & Ny & Ms & _).
  exists y. split; [exact I|]. split; [exact Ny|]. intros side n S B. rewrite (Ms side S). eexists. split; [reflexivity|].
  repeat (destruct S as [<-|S]; [exact (odt_mm'_says sh _ o n P B)|]). contradiction.
Qed.
Print Assumptions C89_drawings.
Theorem C89_lines : forall show other geometry document m d b x kind name l n, prints show -> one_text document m d b ->
  shown b x -> named_node "ShapeComponent" x = true -> In (kind, name) drawings -> attr "chid" x = Some (zs kind) ->
  children_named "BorderLine" x = [l] -> int_attr 32 "width" l n ->
  exists y, In y (written_text (odt_measure show other) geometry document) /\ named_node name y = true /\
    value_says (drawing_property (written_styles (odt_measure show other) geometry document) y "svg:stroke-width") "mm" (millimetres (inject_Z n)) hundredth.
Proof.
  intros sh ot geometry document m d b x kind name l n P T H N K A L B.
  destruct (C87_drawings (odt_measure sh ot) geometry document m d b x kind name T H N K A) as (y & I & Ny & _ & _ & Li).
  exists y. split; [exact I|]. split; [exact Ny|]. destruct (Li l L) as [_ ->]. eexists. split; [reflexivity|]. exact (odt_mm'_says sh _ l n P B).
Qed.
Print Assumptions C89_lines.

(** ** hwp5html *)

Lemma para_shown_all : forall measure style document m p st ps ps' up outer, mapped document m -> names_fine (children_named "Style" m) ->
  named_node "Paragraph" p = true -> refers "style-id" p (children_named "Style" m) st -> attr "kind" st = Some (zs "paragraph") ->
  refers "parashape-id" p (children_named "ParaShape" m) ps -> refers "parashape-id" st (children_named "ParaShape" m) ps' ->
  exists y rest, show style document up p = y :: rest /\ named_node "p" y = true /\ forall prop,
    cascade (page_css measure document) (element_of y) outer prop =
    first_of [declared (zs prop) (para_declarations measure ps); declared (zs prop) (para_declarations measure ps')].
Proof.
  intros measure style document m p st ps ps' up outer M NF Np Rs Kd Rp Rp'.
  destruct (C86_paragraph measure style document m p st ps ps' up outer "margin" M NF Np Rs Kd Rp Rp') as (y & rest & E & N & _).
  exists y, rest. split; [exact E|]. split; [exact N|]. intros prop.
  destruct (C86_paragraph measure style document m p st ps ps' up outer prop M NF Np Rs Kd Rp Rp') as (y' & rest' & E' & _ & Q). rewrite E in E'. injection E' as <- _. exact Q.
Qed.
Lemma declares_padding : forall measure b x n, int_attr b "indent" x n ->
  declared (zs "padding-left") (para_declarations measure x) = if n <? 0 then Some (measure "padding-left" x) else None.
Proof.
  intros measure b x n A. unfold para_declarations. rewrite (negative_indent b x n A). destruct (n <? 0), (attr_is "linespacing-type" "ratio" x); reflexivity.
Qed.

(** Margins and indent of a paragraph, the moved lines of a negative indent, and the
    least height are those in its shape.  If the indent is not negative but that of
    the style is, the lines are moved by that of the style. *)
Theorem C89_html_paragraph : forall show other style document m p st ps ps' up outer, prints show -> mapped document m -> names_fine (children_named "Style" m) ->
  named_node "Paragraph" p = true -> refers "style-id" p (children_named "Style" m) st -> attr "kind" st = Some (zs "paragraph") ->
  refers "parashape-id" p (children_named "ParaShape" m) ps -> refers "parashape-id" st (children_named "ParaShape" m) ps' ->
  exists y rest, Model_Html.show style document up p = y :: rest /\ named_node "p" y = true /\
    let value := cascade (page_css (css_measure show other) document) (element_of y) outer in
    (forall t r b l, int_attr 32 "doubled-margin-top" ps t -> int_attr 32 "doubled-margin-right" ps r -> int_attr 32 "doubled-margin-bottom" ps b ->
       int_attr 32 "doubled-margin-left" ps l ->
       exists v, value "margin" = Some v /\ says_four v "pt" (points (half t)) (points (half r)) (points (half b)) (points (half l)) exactly) /\
    (forall n, int_attr 32 "indent" ps n -> value_says (value "text-indent") "pt" (points (half n)) exactly) /\
    (forall n, int_attr 32 "indent" ps n -> n < 0 -> value_says (value "padding-left") "pt" (points (half (- n))) exactly) /\
    (forall n n', int_attr 32 "indent" ps n -> 0 <= n -> int_attr 32 "indent" ps' n' -> n' < 0 -> value_says (value "padding-left") "pt" (points (half (- n'))) exactly) /\
    (forall n n', int_attr 32 "indent" ps n -> 0 <= n -> int_attr 32 "indent" ps' n' -> 0 <= n' -> value "padding-left" = None) /\
    (forall n, attr "linespacing-type" ps = Some (zs "ratio") -> int_attr 32 "linespacing" ps n -> value_says (value "min-height") "em" (inject_Z n / 100) exactly).
Proof.
  intros sh ot style document m p st ps ps' up outer P M NF Np Rs Kd Rp Rp'.
  destruct (para_shown_all (css_measure sh ot) style document m p st ps ps' up outer M NF Np Rs Kd Rp Rp') as (y & rest & E & N & Q).
  assert (H : forall n, n < 0 -> (n <? 0) = true) by (intros; apply Z.ltb_lt; assumption). assert (H' : forall n, 0 <= n -> (n <? 0) = false) by (intros; apply Z.ltb_ge; assumption).
  exists y, rest. split; [exact E|]. split; [exact N|]. cbv zeta. split; [|split; [|split; [|split; [|split]]]].
  - intros t r b l T R B L. rewrite Q. exists (css_measure sh ot "margin" ps). split.
    + unfold para_declarations. destruct (compares (fun n => n <? 0) "indent" ps), (attr_is "linespacing-type" "ratio" ps); reflexivity.
    + eexists _, _, _, _. split; [reflexivity|]. split; [exact (css_half_says sh _ ps t P T)|]. split; [exact (css_half_says sh _ ps r P R)|].
      split; [exact (css_half_says sh _ ps b P B)|exact (css_half_says sh _ ps l P L)].
  - intros n A. rewrite Q. exists (css_measure sh ot "text-indent" ps). split.
    + unfold para_declarations. destruct (compares (fun n => n <? 0) "indent" ps), (attr_is "linespacing-type" "ratio" ps); reflexivity.
    + exact (css_half_says sh _ ps n P A).
  - intros n A L. rewrite Q, (declares_padding _ 32 ps n A), H by exact L. eexists. split; [reflexivity|]. exact (css_padding_says sh ps n P A).
  - intros n n' A L A' L'. rewrite Q, (declares_padding _ 32 ps n A), (declares_padding _ 32 ps' n' A'), (H' n), (H n') by assumption. eexists. split; [reflexivity|]. exact (css_padding_says sh ps' n' P A').
  - intros n n' A L A' L'. rewrite Q, (declares_padding _ 32 ps n A), (declares_padding _ 32 ps' n' A'), !H' by assumption. reflexivity.
  - intros n K A. rewrite Q. exists (css_measure sh ot "min-height" ps). split.
    + unfold para_declarations, attr_is. rewrite K. destruct (compares (fun n => n <? 0) "indent" ps); reflexivity.
    + exact (part_says sh "em" _ ps n P A).
Qed.
Print Assumptions C89_html_paragraph.

(** The size of a text is the base size times the relative size for its language;
    its lines are as high as its paragraph says. *)
Theorem C89_html_text : forall show other style document m p st ps ps' l x cs cs' lang base up outer, prints show -> mapped document m -> names_fine (children_named "Style" m) ->
  named_node "Paragraph" p = true -> refers "style-id" p (children_named "Style" m) st -> attr "kind" st = Some (zs "paragraph") ->
  refers "parashape-id" p (children_named "ParaShape" m) ps -> refers "parashape-id" st (children_named "ParaShape" m) ps' ->
  In l (children_named "LineSeg" p) -> In x (children_named "Text" l) ->
  attr "lang" x = Some (zs lang) -> In (lang, base) (languages document) ->
  refers "charshape-id" x (children_named "CharShape" m) cs -> refers "charshape-id" st (children_named "CharShape" m) cs' ->
  exists y rest z, Model_Html.show style document up p = y :: rest /\ In z (kids_of_node y) /\ named_node "span" z = true /\ page_text z = first_text (kids_of_node x) /\
    let value := cascade (page_css (css_measure show other) document) (element_of z) (element_of y :: outer) in
    (forall size r, int_attr 31 "basesize" cs size -> int_below 8 "RelativeSize" lang cs r ->
       value_says (value "font-size") "pt" (points (percent (inject_Z r) (inject_Z size))) (2 # 1000000)) /\
    (forall n, attr "linespacing-type" ps = Some (zs "ratio") -> int_attr 32 "linespacing" ps n -> value_says (value "line-height") "" (inject_Z n / 100) exactly).
Proof.
  intros sh ot style document m p st ps ps' l x cs cs' lang base up outer P M NF Np Rs Kd Rp Rp' Il Ix La Ib Rc Rc'.
  destruct (C86_text (css_measure sh ot) style document m p st ps ps' l x cs cs' lang base up outer M NF Np Rs Kd Rp Rp' Il Ix La Ib Rc Rc') as (y & rest & z & E & Iz & Nz & T & Q).
  exists y, rest, z. split; [exact E|]. split; [exact Iz|]. split; [exact Nz|]. split; [exact T|]. cbv zeta. split.
  - intros size r B R. rewrite Q. exists (css_measure sh ot ("font-size-" ++ lang)%string cs). split; [reflexivity|].
    unfold languages in Ib. repeat (destruct Ib as [Ib|Ib]; [injection Ib as <- _; exact (size_says sh _ cs size r P B R)|]). contradiction.
  - intros n K A. rewrite Q. exists (css_measure sh ot "line-height" ps). split.
    + assert (X1 : forall c, declared (zs "line-height") (lang_declarations (css_measure sh ot) document lang base c) = None) by reflexivity.
      assert (X2 : declared (zs "line-height") (line_declarations (css_measure sh ot) ps) = Some (css_measure sh ot "line-height" ps)).
      { unfold line_declarations, attr_is. rewrite K. reflexivity. }
      rewrite !X1, !Proof_Html2.char_no_line, X2. reflexivity.
    + exact (part_says sh "" _ ps n P A).
Qed.
Print Assumptions C89_html_text.

(** A section is a box as wide as its pages, in it is the area inside the margins,
    and in that, with the space for header and footer, is its text. *)
Theorem C89_html_pages : forall show other style document d b s pd k, prints show ->
  In d (filter (named_node "HwpDoc") document) -> In b (children_named "BodyText" d) -> In s (children_named "SectionDef" b) ->
  NoDup (map (value_of "section-id") (flat_map (children_named "SectionDef") (flat_map (children_named "BodyText") (filter (named_node "HwpDoc") document)))) ->
  attr "section-id" s = Some (fmt_d (Z.of_nat k)) -> children_named "PageDef" s = [pd] ->
  exists body_ box area text, In body_ (body style document) /\ In box (kids_of_node body_) /\ In area (kids_of_node box) /\ In text (kids_of_node area) /\
    kids_of_node text = flat_map (Model_Html.show style document [s; b; d]) (kids_of_node s) /\
    let value := cascade (page_css (css_measure show other) document) in
    let out := [element_of body_] in
    (forall o n, In (o, n) [("portrait", "width"); ("landscape", "height")] -> attr "orientation" pd = Some (zs o) ->
       forall w, int_attr 24 n pd w -> value_says (value (element_of box) out "width") "mm" (millimetres (inject_Z w)) css_hundredth) /\
    (forall side n, In side ["top"; "right"; "bottom"; "left"] -> int_attr 24 (side ++ "-offset") pd n ->
       value_says (value (element_of area) (element_of box :: out) ("margin-" ++ side)%string) "mm" (millimetres (inject_Z n)) css_hundredth) /\
    (forall side w n, In (side, w) [("top", "header"); ("bottom", "footer")] -> int_attr 24 (w ++ "-offset") pd n ->
       value_says (value (element_of text) (element_of area :: element_of box :: out) ("padding-" ++ side)%string) "mm" (millimetres (inject_Z n)) css_hundredth).
Proof.
  intros sh ot style document d b s pd k P Hd Hb Hs ND A Pd.
  assert (I : In s (flat_map (children_named "SectionDef") (flat_map (children_named "BodyText") (filter (named_node "HwpDoc") document)))).
  { apply in_flat_map. exists b. split; [|exact Hs]. apply in_flat_map. exists d. split; assumption. }
  assert (E1 : element_of (section_div style document [b; d] s) = section_element k).
  { unfold section_div, html, element_of, html_attr. cbn [lookup]. cbv beta iota. unfold section_element. f_equal. exact (section_word (css_measure sh ot) style document s pd k A). }
  exists (html "body" [] (map (section_div style document [b; d]) (children_named "SectionDef" b))), (section_div style document [b; d] s).
  eexists _, _. split; [|split; [|split; [|split; [|split]]]].
  - apply in_flat_map. exists d. split; [exact Hd|]. apply in_map_iff. exists b. split; [reflexivity|exact Hb].
  - cbn [html kids_of_node]. apply in_map. exact Hs.
  - left. reflexivity.
  - cbn [html kids_of_node]. apply in_or_app. right. left. reflexivity.
  - reflexivity.
  - cbv zeta. rewrite E1. split; [|split].
    + intros o n J O w B. assert (J' : In o ["portrait"; "landscape"]) by (repeat (destruct J as [J|J]; [injection J as <- <-; listed|]); contradiction).
      eexists. split; [exact (page_declares (css_measure sh ot) style document s pd k I ND A Pd o O J')|]. destruct B as [B1 B2].
      repeat (destruct J as [J|J]; [injection J as <- <-; exact (css_mm_says sh _ w P (at_near 24 _ pd w (conj B1 B2)) B2)|]). contradiction.
    + intros side n J B. eexists. split; [exact (area_declares (css_measure sh ot) style document s pd k I ND A Pd side J)|]. destruct B as [B1 B2].
      repeat (destruct J as [<-|J]; [exact (css_mm_says sh _ n P (at_near 24 _ pd n (conj B1 B2)) B2)|]). contradiction.
    + intros side w n J B. eexists. split; [exact (text_declares (css_measure sh ot) style document s pd k I ND A Pd side w J)|]. destruct B as [B1 B2].
      repeat (destruct J as [J|J]; [injection J as <- <-; exact (css_mm_says sh _ n P (at_near 24 _ pd n (conj B1 B2)) B2)|]). contradiction.
Qed.
Print Assumptions C89_html_pages.

(** ** A case: pages of A4 with a paragraph of 10 point, moved to the right; numbers
    written with fifteen digits *)
Theorem C89_numbers : prints show15.
Proof. exact show15_prints. Qed.
Print Assumptions C89_numbers.

Definition lengths_of (top right bottom left indent ratio : string) : list (string * string) :=
  [("align", "both"); ("doubled-margin-top", top); ("doubled-margin-right", right); ("doubled-margin-bottom", bottom); ("doubled-margin-left", left); ("indent", indent);
   ("linespacing-type", "ratio"); ("linespacing", ratio)].
Definition letters (size ko : string) : xnode :=
  node "CharShape" [("bold", "0"); ("italic", "0"); ("text-color", "#000000"); ("underline", "none"); ("underline-style", "solid"); ("basesize", size)]
    [faces "0" "0"; node "RelativeSize" [("ko", ko); ("en", "100"); ("cn", "100"); ("jp", "100"); ("other", "100"); ("symbol", "100"); ("user", "100")] []].
Definition length_mappings : xnode :=
  node "IdMappings" [("ko-fonts", "1"); ("en-fonts", "1"); ("cn-fonts", "1"); ("jp-fonts", "1"); ("other-fonts", "1"); ("symbol-fonts", "1"); ("user-fonts", "1")]
    ([node "FaceName" [("name", "Batang")] []; node "FaceName" [("name", "Times")] []; node "FaceName" [("name", "Song")] []; node "FaceName" [("name", "Mincho")] [];
      node "FaceName" [("name", "Other")] []; node "FaceName" [("name", "Symbol")] []; node "FaceName" [("name", "User")] []] ++
     [letters "1000" "100"; letters "1050" "95";
      node "ParaShape" (lengths_of "0" "0" "300" "0" "-2620" "160") []; node "ParaShape" (lengths_of "1000" "0" "201" "4000" "2000" "130") [];
      node "Style" [("local-name", "Item"); ("name", "Item"); ("kind", "paragraph"); ("parashape-id", "0"); ("charshape-id", "0"); ("next-style-id", "0")] []]).
Definition length_paragraph (id shape : string) (t : xnode) : xnode :=
  node "Paragraph" [("paragraph-id", id); ("style-id", "0"); ("parashape-id", shape); ("new-page", "0"); ("new-section", "0")] [node "LineSeg" [] [t]].
Definition length_page : xnode :=
  node "PageDef" [("orientation", "portrait"); ("width", "59528"); ("height", "84188"); ("top-offset", "5668"); ("right-offset", "8504"); ("bottom-offset", "4252"); ("left-offset", "8504");
                  ("header-offset", "4252"); ("footer-offset", "4252")] [].
Definition length_document : list xnode :=
  [node "HwpDoc" [] [node "DocInfo" [] [length_mappings];
     node "BodyText" [] [node "SectionDef" [("section-id", "0")] [length_page; node "ColumnSet" [] []; length_paragraph "0" "0" (text "0" "first"); length_paragraph "1" "1" (text "1" "second")]]]].
Definition nothing (s : string) (x : xnode) : list Z := [].
Definition shown_as (prop : string) : list (list Z * option (list Z)) :=
  flat_map (applied (page_css (css_measure show15 nothing) length_document) prop []) (body styled length_document).
Definition written_as (name prop : string) : list (list Z * option (list Z)) :=
  let measure := odt_measure show15 nothing in
  flat_map (fun y => if name_is "text:p" (zs name) then [(opendoc_text y, paragraph_property (written_styles measure placed length_document) y prop)]
                     else map (fun z => (opendoc_text z, text_property (written_styles measure placed length_document) y z prop)) (children_named name y))
    (page_elements "text:p" (file_text (content_xml measure placed length_document))).
Definition two (first second : string) : list (list Z * option (list Z)) := [(zs "first", Some (zs first)); (zs "second", Some (zs second))].
Definition two_lines (first second : string) : list (list Z * option (list Z)) := [(zs "first" ++ [10], Some (zs first)); (zs "second" ++ [10], Some (zs second))].
Definition with_value (l : list (list Z * option (list Z))) : list (list Z * option (list Z)) := filter (fun x => match snd x with Some _ => true | None => false end) l.

Example C89_case :
  one_text length_document length_mappings (hd (Characters []) length_document) (body_of length_document) /\
  mapped length_document length_mappings /\ names_fine (children_named "Style" length_mappings) /\
  int_attr 32 "indent" (nth 0 (children_named "ParaShape" length_mappings) (Characters [])) (-2620) /\
  written_as "text:p" "fo:text-indent" = two_lines "-13.1pt" "10pt" /\ written_as "text:p" "fo:margin-left" = two_lines "13.1pt" "20pt" /\
  written_as "text:p" "fo:margin-bottom" = two_lines "1.5pt" "1.005pt" /\ written_as "text:p" "fo:line-height" = two_lines "160%" "130%" /\
  written_as "text:span" "style:font-size-asian" = two "10pt" "9.975pt" /\ written_as "text:span" "fo:font-size" = two "10pt" "10.5pt" /\
  map (fun p => map (fun x => says_itself x "style:page-layout-properties" p) (page_layouts (zs "PageLayout-1") (styles_xml (odt_measure show15 nothing) length_document)))
    ["fo:page-width"; "fo:page-height"; "fo:margin-left"; "fo:margin-top"] = map (fun v => [Some (zs v)]) ["21cm"; "29.7cm"; "3cm"; "2cm"] /\
  with_value (shown_as "margin") = two_lines "0pt 0pt 1.5pt 0pt" "5pt 0pt 1.005pt 20pt" /\ with_value (shown_as "text-indent") = two_lines "-13.1pt" "10pt" /\
  with_value (shown_as "min-height") = two_lines "1.6em" "1.3em" /\ with_value (shown_as "line-height") = two "1.6" "1.3" /\
  with_value (shown_as "font-size") = two "10pt" "9.975pt" /\
  map (fun p => cascade (page_css (css_measure show15 nothing) length_document) (section_element 0) [(zs "body", [])] p) ["width"] = [Some (zs "210mm")] /\
  cascade (page_css (css_measure show15 nothing) length_document) area_element [section_element 0; (zs "body", [])] "margin-left" = Some (zs "30mm").
Proof.
  split; [is_one [0; 1]%nat (@nil nat) (@nil nat)|]. split; [is_mapped|]. split; [split; [|vm_compute; repeat constructor]; no_dup|].
  split; [split; [reflexivity|split; reflexivity]|]. repeat split; vm_compute; reflexivity.
Qed.

(** The second paragraph is not hanging, and is moved to the right by 20 point and
    more: by what its style is hanging. *)
Theorem C89_moved_refuted :
  int_attr 32 "indent" (nth 1 (children_named "ParaShape" length_mappings) (Characters [])) 2000 /\
  with_value (shown_as "padding-left") = two_lines "13.1pt" "13.1pt".
Proof. split; [split; [reflexivity|split; reflexivity]|vm_compute; reflexivity]. Qed.
Print Assumptions C89_moved_refuted.
