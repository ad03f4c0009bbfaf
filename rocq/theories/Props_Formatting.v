(** C88: from the records of a file to the shape of what is shown. *)
From Coq Require Import ZArith String List Bool Lia.
From Verif Require Import Base BaseFacts Model_Tree Model_XmlModel Model_Text Model_Record Model_Bintype Model_Models Model_Oleprops Model_Embed
  Model_XmlText Model_XmlElement Model_XmlFile Spec_Tree Spec_Section Spec_XmlText Spec_Bintype Spec_Models Spec_Oleprops Spec_Layouts Spec_XmlElement Spec_XmlFile Spec_XmlSummary Spec_XmlHwp
  Model_Plaintext Spec_Plaintext Proof_OleText Spec_Formatting Proof_Formatting4 Proof_Formatting5.
From Verif Require Import Model_Html Spec_Html Model_Opendoc Spec_Opendoc.
From Verif Require Proof_Layouts Proof_Html4 Props_Html Props_Opendoc Props_Models Props_Oleprops Props_Plaintext.
Import ListNotations.
Open Scope string_scope.
Open Scope list_scope.
Open Scope Z_scope.

(** ** C88 *)

Local Notation page_css := Props_Html.page_css.
Local Notation written_text := Props_Opendoc.written_text.
Local Notation written_styles := Props_Opendoc.written_styles.

(** If the file is as in C72, its document information has one list of shapes and
    its sections have none, then the document made from it has one list of shapes
    and one text; each shape is made for the record with the same number, each
    section for its records, and each of its paragraphs for a record at the top. *)
Theorem C88_document : forall time_text repr object version embedbin formats summary_bytes summary docinfo sections f x kids,
  version_ok version -> (forall read n d, embedbin = Some read -> read n = Ok d -> all_bytes d) ->
  stream_reads_as formats summary_bytes summary -> (forall set, In set (pss_sets summary) -> times_ok time_text (ps_properties set)) ->
  docinfo_fits version embedbin docinfo -> Forall (fun s => section_fits version (snd s)) sections ->
  docinfo_records version docinfo f -> one_mappings f x kids ->
  (forall s out, In s sections -> models_of version Finished [] (snd s) out Finished -> without_shapes out) ->
  exists n t document m d b,
    (forall k fuel, xmlevents (fun v => repr (view_of v)) object (4 + fuel)
       (hwp5file_events time_text embedbin version summary (stream_models (n + k) version (docinfo, Finished))
          (map (fun s => (fst s, stream_models (n + k) version (snd s, Finished))) sections)) = (events_of t, Finished)) /\
    (writable_text t -> forall decl, exists chunks text body,
       xml_bytechunks decl (events_of t) = (chunks, Finished) /\ concat chunks = (if decl then xml_declaration else []) ++ body /\
       utf8_decode body = Some text /\ xml_read text = Some (read_back [] (events_of t))) /\
    build [] [] (read_back [] (events_of t)) = Some document /\ document_of version x kids sections document m d b.
Proof. exact document_made. Qed.
Print Assumptions C88_document.

(** The paragraphs of a section, with what hwp5odt writes for each: a [text:p] with
    the alignment that the bits of its own paragraph shape say, its indents and
    margins, and a new page before it if a bit of the record of the paragraph
    says so. *)
Theorem C88_opendocument : forall measure geometry version x kids sections document m d b names,
  document_of version x kids sections document m d b -> whole_tables document ->
  texts_are "local_name" (shapes_of "Style" kids) names -> local_fine names ->
  forall i s out, nth_error sections i = Some s -> models_of version Finished [] (snd s) out Finished ->
  exists section front back, nth_error (children_named "SectionDef" b) i = Some section /\ flow section = front ++ back /\
    Forall2 (fun rm p => made_for (snd rm) p) (top_records out) back /\
    forall j rm p st ps ps', nth_error (top_records out) j = Some rm -> nth_error back j = Some p ->
      points "style_id" rm (shapes_of "Style" kids) st -> points "parashape_id" rm (shapes_of "ParaShape" kids) ps -> points "parashape_id" st (shapes_of "ParaShape" kids) ps' ->
      exists y shape, made_for (snd ps) shape /\ In y (written_text measure geometry document) /\ named_node "text:p" y = true /\
        (simple_text p = true -> opendoc_text y = apply_templates p) /\
        (forall a v, chosen_bits "parashapeflags" "align" a ps -> In (a, v) alignments ->
           paragraph_property (written_styles measure geometry document) y "fo:text-align" = Some (zs v)) /\
        (forall prop k, In (prop, k) lengths -> paragraph_property (written_styles measure geometry document) y prop = Some (measure k shape)) /\
        (forall f : bool, bit_is "split" "new_page" (if f then 1 else 0) rm ->
           paragraph_property (written_styles measure geometry document) y "fo:break-before" = if f then Some (zs "page") else None).
Proof.
  intros measure geometry version x kids sections document m d b names HD WT TN LF i s out ES HM.
  destruct (section_at _ _ _ _ _ _ _ _ HD i s out ES HM) as (y & front & back & EY & EF & FB). exists y, front, back. split; [exact EY|]. split; [exact EF|]. split; [exact FB|].
  intros j rm p st ps ps' ER EP P1 P2 P3. destruct (Forall2_nth_l _ _ _ _ _ FB j rm ER) as (p' & EP' & M). rewrite EP in EP'. injection EP' as <-.
  assert (IB : In p back) by exact (nth_error_In _ _ EP). assert (IF : In p (flow y)) by (rewrite EF; apply in_or_app; now right).
  pose proof (para_type _ _ _ _ _ EF IB M) as TP.
  destruct (points_refers _ _ _ _ _ _ _ _ HD "style-id" "style_id" "Style" rm p st ltac:(cbn; tauto) eq_refl ltac:(discriminate) ltac:(rewrite TP; reflexivity) M P1) as (st' & R1 & M1 & T1).
  destruct (points_refers _ _ _ _ _ _ _ _ HD "parashape-id" "parashape_id" "ParaShape" rm p ps ltac:(cbn; tauto) eq_refl ltac:(discriminate) ltac:(rewrite TP; reflexivity) M P2) as (shape & R2 & M2 & T2).
  destruct (points_refers _ _ _ _ _ _ _ _ HD "parashape-id" "parashape_id" "ParaShape" st st' ps' ltac:(cbn; tauto) eq_refl ltac:(discriminate) ltac:(rewrite T1; reflexivity) M1 P3) as (shape' & R3 & _ & _).
  destruct (Props_Opendoc.C87_paragraph_own measure geometry document m d b p st' shape shape' (text_document _ _ _ _ _ _ _ _ HD names WT TN LF)
    (flow_shown b y p (nth_error_In _ _ EY) IF) (flow_named _ _ IF) R1 R2 R3) as (z & Z1 & Z2 & Z3 & Z4 & Z5 & _ & Z7).
  exists z, shape. split; [exact M2|]. split; [exact Z1|]. split; [exact Z2|]. split; [exact Z3|]. split; [|split; [exact Z5|]].
  - intros a v C HA. now rewrite Z4, (align_is a v ps shape T2 M2 C HA).
  - intros f C. apply Z7. rewrite (bit_attr "new-page" "new_page" "split" _ 2 rm p eq_refl ltac:(rewrite TP; reflexivity) M C). now destruct f.
Qed.
Print Assumptions C88_opendocument.

(** Its texts: bold and italic are those whose character shape, or the one of the
    style of the paragraph, has the bit. *)
Theorem C88_opendocument_text : forall measure geometry version x kids sections document m d b names,
  document_of version x kids sections document m d b -> whole_tables document ->
  texts_are "local_name" (shapes_of "Style" kids) names -> local_fine names ->
  forall section p rm st l t i j k cs cs', In section (children_named "SectionDef" b) -> In p (flow section) -> made_for (snd rm) p -> points "style_id" rm (shapes_of "Style" kids) st ->
  nth_error (children_named "LineSeg" p) i = Some l -> after_texts l t j -> attr "charshape-id" t = Some (fmt_d (Z.of_nat k)) ->
  nth_error (shapes_of "CharShape" kids) k = Some cs -> points "charshape_id" st (shapes_of "CharShape" kids) cs' ->
  exists y z shape, made_for (snd cs) shape /\ In y (written_text measure geometry document) /\ named_node "text:p" y = true /\ In z (kids_of_node y) /\ opendoc_text z = first_text (kids_of_node t) /\
    (forall prop q, In (prop, q) sizes -> text_property (written_styles measure geometry document) y z prop = Some (measure q shape)) /\
    (forall prop f f', In prop ["fo:font-weight"; "style:font-weight-asian"; "style:font-weight-complex"] ->
       bit_is "charshapeflags" "bold" (if f : bool then 1 else 0) cs -> bit_is "charshapeflags" "bold" (if f' : bool then 1 else 0) cs' ->
       text_property (written_styles measure geometry document) y z prop = if f || f' then Some (zs "bold") else None) /\
    (forall prop f f', In prop ["fo:font-style"; "style:font-style-asian"; "style:font-style-complex"] ->
       bit_is "charshapeflags" "italic" (if f : bool then 1 else 0) cs -> bit_is "charshapeflags" "italic" (if f' : bool then 1 else 0) cs' ->
       text_property (written_styles measure geometry document) y z prop = if f || f' then Some (zs "italic") else None).
Proof.
  intros measure geometry version x kids sections document m d b names HD WT TN LF y p rm st l t i j k cs cs' IY IF M P1 NL AT AC NC P2.
  assert (TP : m_type (snd rm) = "Paragraph") by (apply (type_once _ _ p (mf_name _ _ M)); exact (flow_named _ _ IF)).
  destruct (points_refers _ _ _ _ _ _ _ _ HD "style-id" "style_id" "Style" rm p st ltac:(cbn; tauto) eq_refl ltac:(discriminate) ltac:(rewrite TP; reflexivity) M P1) as (st' & R1 & M1 & T1).
  destruct (shape_at _ _ _ _ _ _ _ _ HD "CharShape" k cs ltac:(cbn; tauto) NC) as (c & EC & MC & TC).
  destruct (points_refers _ _ _ _ _ _ _ _ HD "charshape-id" "charshape_id" "CharShape" st st' cs' ltac:(cbn; tauto) eq_refl ltac:(discriminate) ltac:(rewrite T1; reflexivity) M1 P2) as (c' & R3 & MC' & TC').
  destruct (Props_Opendoc.C87_text_own measure geometry document m d b p st' l t c c' i j (text_document _ _ _ _ _ _ _ _ HD names WT TN LF)
    (flow_shown b y p IY IF) (flow_named _ _ IF) R1 NL AT (ex_intro _ k (conj AC EC)) R3) as (w & z & Z1 & Z2 & Z3 & Z4 & Z5 & _ & _ & _ & Z9 & Z10).
  exists w, z, c. repeat (split; [assumption|]). split.
  - intros prop f f' HP B B'. apply Z9; [exact HP| |].
    + rewrite (bit_attr "bold" "bold" "charshapeflags" _ 8 cs c eq_refl ltac:(rewrite TC; reflexivity) MC B). now destruct f.
    + rewrite (bit_attr "bold" "bold" "charshapeflags" _ 8 cs' c' eq_refl ltac:(rewrite TC'; reflexivity) MC' B'). now destruct f'.
  - intros prop f f' HP B B'. apply Z10; [exact HP| |].
    + rewrite (bit_attr "italic" "italic" "charshapeflags" _ 8 cs c eq_refl ltac:(rewrite TC; reflexivity) MC B). now destruct f.
    + rewrite (bit_attr "italic" "italic" "charshapeflags" _ 8 cs' c' eq_refl ltac:(rewrite TC'; reflexivity) MC' B'). now destruct f'.
Qed.
Print Assumptions C88_opendocument_text.

(** The same for hwp5html: the first element made for a paragraph has the alignment
    that the bits of its own paragraph shape say, its margins and its indent. *)
Theorem C88_page : forall measure style version x kids sections document m d b names,
  document_of version x kids sections document m d b ->
  texts_are "name" (shapes_of "Style" kids) names -> css_fine names ->
  forall i s out, nth_error sections i = Some s -> models_of version Finished [] (snd s) out Finished ->
  exists section front back, nth_error (children_named "SectionDef" b) i = Some section /\ flow section = front ++ back /\
    Forall2 (fun rm p => made_for (snd rm) p) (top_records out) back /\
    forall j rm p st ps ps' up outer, nth_error (top_records out) j = Some rm -> nth_error back j = Some p ->
      points "style_id" rm (shapes_of "Style" kids) st -> chosen_bits "flags" "kind" "PARAGRAPH" st ->
      points "parashape_id" rm (shapes_of "ParaShape" kids) ps -> points "parashape_id" st (shapes_of "ParaShape" kids) ps' ->
      exists y rest shape, made_for (snd ps) shape /\ show style document up p = y :: rest /\
        (forall a v, chosen_bits "parashapeflags" "align" a ps -> In (a, v) alignments ->
           cascade (page_css measure document) (element_of y) outer "text-align" = Some (zs v)) /\
        cascade (page_css measure document) (element_of y) outer "margin" = Some (measure "margin" shape) /\
        cascade (page_css measure document) (element_of y) outer "text-indent" = Some (measure "text-indent" shape).
Proof.
  intros measure style version x kids sections document m d b names HD TN LF i s out ES HM.
  destruct (section_at _ _ _ _ _ _ _ _ HD i s out ES HM) as (y & front & back & EY & EF & FB). exists y, front, back. split; [exact EY|]. split; [exact EF|]. split; [exact FB|].
  intros j rm p st ps ps' up outer ER EP P1 K P2 P3. destruct (Forall2_nth_l _ _ _ _ _ FB j rm ER) as (p' & EP' & M). rewrite EP in EP'. injection EP' as <-.
  assert (IB : In p back) by exact (nth_error_In _ _ EP). assert (IF : In p (flow y)) by (rewrite EF; apply in_or_app; now right).
  pose proof (para_type _ _ _ _ _ EF IB M) as TP.
  destruct (points_refers _ _ _ _ _ _ _ _ HD "style-id" "style_id" "Style" rm p st ltac:(cbn; tauto) eq_refl ltac:(discriminate) ltac:(rewrite TP; reflexivity) M P1) as (st' & R1 & M1 & T1).
  destruct (points_refers _ _ _ _ _ _ _ _ HD "parashape-id" "parashape_id" "ParaShape" rm p ps ltac:(cbn; tauto) eq_refl ltac:(discriminate) ltac:(rewrite TP; reflexivity) M P2) as (shape & R2 & M2 & T2).
  destruct (points_refers _ _ _ _ _ _ _ _ HD "parashape-id" "parashape_id" "ParaShape" st st' ps' ltac:(cbn; tauto) eq_refl ltac:(discriminate) ltac:(rewrite T1; reflexivity) M1 P3) as (shape' & R3 & _ & _).
  pose proof (bits_attr "kind" "kind" "flags" "PARAGRAPH" 2 st st' eq_refl ltac:(rewrite T1; reflexivity) ltac:(cbn; intuition discriminate) M1 K) as KD.
  destruct (Props_Html.C86_paragraph_own measure style document m p st' shape shape' up outer (do_mapped _ _ _ _ _ _ _ _ HD) (css_names _ _ _ _ _ _ _ _ HD names TN LF) (flow_named _ _ IF) R1 KD R2 R3) as (z & rest & Z1 & Z2 & Z3 & Z4).
  exists z, rest, shape. split; [exact M2|]. split; [exact Z1|]. split; [|split; [exact Z3|exact Z4]]. intros a v C HA. now rewrite Z2, (align_is a v ps shape T2 M2 C HA).
Qed.
Print Assumptions C88_page.

(** Its texts: the colour of the character shape; bold and italic as above. *)
Theorem C88_page_text : forall measure style version x kids sections document m d b names,
  document_of version x kids sections document m d b ->
  texts_are "name" (shapes_of "Style" kids) names -> css_fine names ->
  forall section p rm st ps ps' l t k cs cs' lang up outer, In section (children_named "SectionDef" b) -> In p (flow section) -> made_for (snd rm) p ->
  points "style_id" rm (shapes_of "Style" kids) st -> chosen_bits "flags" "kind" "PARAGRAPH" st ->
  points "parashape_id" rm (shapes_of "ParaShape" kids) ps -> points "parashape_id" st (shapes_of "ParaShape" kids) ps' ->
  In l (children_named "LineSeg" p) -> In t (children_named "Text" l) -> attr "lang" t = Some (zs lang) -> In lang languages_in_order ->
  attr "charshape-id" t = Some (fmt_d (Z.of_nat k)) -> nth_error (shapes_of "CharShape" kids) k = Some cs -> points "charshape_id" st (shapes_of "CharShape" kids) cs' ->
  exists y rest z, show style document up p = y :: rest /\ In z (kids_of_node y) /\ page_text z = first_text (kids_of_node t) /\
    (forall n, In ("text_color", VInt n) (m_content (snd cs)) -> cascade (page_css measure document) (element_of z) (element_of y :: outer) "color" = Some (color_text n)) /\
    (forall f f', bit_is "charshapeflags" "bold" (if f : bool then 1 else 0) cs -> bit_is "charshapeflags" "bold" (if f' : bool then 1 else 0) cs' ->
       cascade (page_css measure document) (element_of z) (element_of y :: outer) "font-weight" = if f || f' then Some (zs "bold") else None) /\
    (forall f f', bit_is "charshapeflags" "italic" (if f : bool then 1 else 0) cs -> bit_is "charshapeflags" "italic" (if f' : bool then 1 else 0) cs' ->
       cascade (page_css measure document) (element_of z) (element_of y :: outer) "font-style" = if f || f' then Some (zs "italic") else None).
Proof.
  intros measure style version x kids sections document m d b names HD TN LF y p rm st ps ps' l t k cs cs' lang up outer IY IF M P1 K P2 P3 IL IT AL HL AC NC P4.
  assert (TP : m_type (snd rm) = "Paragraph") by (apply (type_once _ _ p (mf_name _ _ M)); exact (flow_named _ _ IF)).
  destruct (points_refers _ _ _ _ _ _ _ _ HD "style-id" "style_id" "Style" rm p st ltac:(cbn; tauto) eq_refl ltac:(discriminate) ltac:(rewrite TP; reflexivity) M P1) as (st' & R1 & M1 & T1).
  destruct (points_refers _ _ _ _ _ _ _ _ HD "parashape-id" "parashape_id" "ParaShape" rm p ps ltac:(cbn; tauto) eq_refl ltac:(discriminate) ltac:(rewrite TP; reflexivity) M P2) as (shape & R2 & M2 & T2).
  destruct (points_refers _ _ _ _ _ _ _ _ HD "parashape-id" "parashape_id" "ParaShape" st st' ps' ltac:(cbn; tauto) eq_refl ltac:(discriminate) ltac:(rewrite T1; reflexivity) M1 P3) as (shape' & R3 & _ & _).
  pose proof (bits_attr "kind" "kind" "flags" "PARAGRAPH" 2 st st' eq_refl ltac:(rewrite T1; reflexivity) ltac:(cbn; intuition discriminate) M1 K) as KD.
  destruct (shape_at _ _ _ _ _ _ _ _ HD "CharShape" k cs ltac:(cbn; tauto) NC) as (c & EC & MC & TC).
  destruct (points_refers _ _ _ _ _ _ _ _ HD "charshape-id" "charshape_id" "CharShape" st st' cs' ltac:(cbn; tauto) eq_refl ltac:(discriminate) ltac:(rewrite T1; reflexivity) M1 P4) as (c' & R4 & MC' & TC').
  destruct (In_nth_error _ _ HL) as (j & HJ). destruct (Proof_Html4.lang_entry document j lang HJ) as [base LB].
  pose proof (do_mapped _ _ _ _ _ _ _ _ HD) as MP. pose proof (css_names _ _ _ _ _ _ _ _ HD names TN LF) as NF.
  destruct (Props_Html.C86_text measure style document m p st' shape shape' l t c c' lang base up outer MP NF (flow_named _ _ IF) R1 KD R2 R3 IL IT AL (nth_error_In _ _ LB) (ex_intro _ k (conj AC EC)) R4) as (w & rest & z & Z1 & Z2 & Z3 & Z4 & Z5).
  assert (LN : forall prop c0, In prop ["font-weight"; "font-style"; "color"] -> declared (zs prop) (lang_declarations measure document lang base c0) = None).
  { intros prop c0 I. repeat (destruct I as [<-|I]; [reflexivity|]). destruct I. }
  assert (PN : forall prop c0, In prop ["font-weight"; "font-style"; "color"] -> declared (zs prop) (line_declarations measure c0) = None).
  { intros prop c0 I. unfold line_declarations, when. destruct (attr_is "linespacing-type" "ratio" c0); [|reflexivity]. repeat (destruct I as [<-|I]; [reflexivity|]). destruct I. }
  assert (BA : forall g (f : bool) cs0 c0, In g ["bold"; "italic"] -> m_type (snd cs0) = "CharShape" -> made_for (snd cs0) c0 -> bit_is "charshapeflags" g (if f then 1 else 0) cs0 -> attr g c0 = Some (zs (if f then "1" else "0"))).
  { intros g f cs0 c0 HG TC0 M0 B. destruct HG as [<-|[<-|[]]].
    - rewrite (bit_attr "bold" "bold" "charshapeflags" _ 8 cs0 c0 eq_refl ltac:(rewrite TC0; reflexivity) M0 B). now destruct f.
    - rewrite (bit_attr "italic" "italic" "charshapeflags" _ 8 cs0 c0 eq_refl ltac:(rewrite TC0; reflexivity) M0 B). now destruct f. }
  exists w, rest, z. split; [exact Z1|]. split; [exact Z2|]. split; [exact Z4|]. split; [|split].
  - intros n HI. rewrite Z5, !LN by (cbn; tauto). rewrite Proof_Html4.char_always. cbn [first_of]. f_equal.
    pose proof (mf_color _ _ MC "text_color" n HI ltac:(rewrite TC; reflexivity)) as E. unfold value_of. change (attr "text-color" c) with (xattr (attribute_name "text_color") c). now rewrite E.
  - intros f f' B B'. rewrite Z5, !LN, !PN by (cbn; tauto). rewrite (Proof_Html4.only_first _ _ _ _ _ (Proof_Html4.char_bold c) (Proof_Html4.char_bold c')).
    rewrite (Proof_Html4.compares_one _ _ _ (BA "bold" f cs c ltac:(cbn; tauto) TC MC B)), (Proof_Html4.compares_one _ _ _ (BA "bold" f' cs' c' ltac:(cbn; tauto) TC' MC' B')). destruct f, f'; reflexivity.
  - intros f f' B B'. rewrite Z5, !LN, !PN by (cbn; tauto). rewrite (Proof_Html4.only_first _ _ _ _ _ (Proof_Html4.char_italic c) (Proof_Html4.char_italic c')).
    rewrite (Proof_Html4.compares_one _ _ _ (BA "italic" f cs c ltac:(cbn; tauto) TC MC B)), (Proof_Html4.compares_one _ _ _ (BA "italic" f' cs' c' ltac:(cbn; tauto) TC' MC' B')). destruct f, f'; reflexivity.
Qed.
Print Assumptions C88_page_text.

(** Where the bits and numbers are: the alignment is bits 2 to 4 of the first byte of
    a paragraph shape; a paragraph has the numbers of its shape and its style in
    its ninth to eleventh byte and the page break in bit 2 of the twelfth; a
    character shape has italic and bold in bits 0 and 1 of its 47th byte and the
    colour in the 53rd to 56th. *)
Theorem C88_alignment_bits : forall version parent r b0 b1 b2 b3 rest m a, version_ok version -> Proof_Layouts.node_ok parent -> all_bytes (b0 :: b1 :: b2 :: b3 :: rest) ->
  reads version parent 25 (b0 :: b1 :: b2 :: b3 :: rest) (Ok m) -> nth_error (map fst alignments) (Z.to_nat (b0 / 4 mod 8)) = Some a ->
  chosen_bits "parashapeflags" "align" a (r, m).
Proof. exact alignment_bits. Qed.
Print Assumptions C88_alignment_bits.
Theorem C88_paragraph_bytes : forall version parent r t0 t1 t2 t3 c0 c1 c2 c3 p0 p1 s f rest m, version_ok version -> Proof_Layouts.node_ok parent ->
  let payload := t0 :: t1 :: t2 :: t3 :: c0 :: c1 :: c2 :: c3 :: p0 :: p1 :: s :: f :: rest in all_bytes payload -> reads version parent 66 payload (Ok m) ->
  In ("parashape_id", VInt (p0 + 256 * p1)) (m_content m) /\ In ("style_id", VInt s) (m_content m) /\ bit_is "split" "new_page" (f / 4 mod 2) (r, m).
Proof. exact paragraph_bytes. Qed.
Print Assumptions C88_paragraph_bytes.
Theorem C88_charshape_bytes : forall version parent r before f0 f1 f2 f3 x y c0 c1 c2 c3 rest m, version_ok version -> Proof_Layouts.node_ok parent ->
  let payload := before ++ f0 :: f1 :: f2 :: f3 :: x :: y :: c0 :: c1 :: c2 :: c3 :: rest in List.length before = 46%nat -> all_bytes payload -> reads version parent 21 payload (Ok m) ->
  bit_is "charshapeflags" "italic" (f0 mod 2) (r, m) /\ bit_is "charshapeflags" "bold" (f0 / 2 mod 2) (r, m) /\
  (c3 < 128 -> In ("text_color", VInt (c0 + 256 * (c1 + 256 * (c2 + 256 * c3)))) (m_content m)).
Proof. exact charshape_bytes. Qed.
Print Assumptions C88_charshape_bytes.

(** A file with two character shapes, the second bold and red, two paragraph
    shapes, the second centred, and two styles; two paragraphs, the first centred
    and bold, the second on a new page. *)
Definition le4 (n : Z) : list Z := [n mod 256; n / 256 mod 256; n / 65536 mod 256; n / 16777216 mod 256].
Definition char_payload (flags color : Z) : list Z := repeat 0 14 ++ repeat 100 7 ++ repeat 0 21 ++ le4 1000 ++ le4 flags ++ [0; 0] ++ le4 color ++ repeat 0 12.
Definition para_payload (flags : Z) : list Z := le4 flags ++ le4 20 ++ le4 0 ++ le4 0 ++ le4 0 ++ le4 0 ++ le4 160 ++ repeat 0 14 ++ le4 0.
Definition wide (s : string) : list Z := [Z.of_nat (String.length s); 0] ++ flat_map (fun c => [c; 0]) (zs s).
Definition style_payload (local name : string) (next para char : Z) : list Z := wide local ++ wide name ++ [0] ++ [next] ++ [0; 0] ++ [para; 0] ++ [char; 0] ++ [0; 0].
Definition shapes_file : list record :=
  [Props_Models.rec 17 0 (flat_map le4 [0; 0; 0; 0; 0; 0; 0; 0; 0; 2; 0; 0; 0; 2; 2; 0]);
   Props_Models.rec 21 1 (char_payload 0 0); Props_Models.rec 21 1 (char_payload 2 0xff);
   Props_Models.rec 25 1 (para_payload 0); Props_Models.rec 25 1 (para_payload 12);
   Props_Models.rec 26 1 (style_payload "Title 1" "Head" 1 1 0); Props_Models.rec 26 1 (style_payload "Plain" "Plain" 1 0 0)].
Definition paragraph_payload (chars mask para style split : Z) : list Z := [chars; 0; 0; 0] ++ [mask; 0; 0; 0] ++ [para; 0] ++ [style] ++ [split] ++ [1;0] ++ [0;0] ++ [1;0] ++ [0;0;0;0].
Definition shaped_section : list record :=
  [Props_Models.rec 66 0 (paragraph_payload 10 4 1 0 0);
   Props_Models.rec 67 1 (Props_Plaintext.definition_control ++ [97; 0; 98; 0]);
   Props_Models.rec 68 1 (le4 0 ++ le4 1); Props_Models.rec 69 1 Props_Plaintext.line;
   Props_Models.rec 71 1 ([100;99;101;115] ++ repeat 0 32);
   Props_Models.rec 66 0 (paragraph_payload 2 0 0 1 4);
   Props_Models.rec 67 1 [99; 0; 100; 0];
   Props_Models.rec 68 1 (le4 0 ++ le4 0); Props_Models.rec 69 1 Props_Plaintext.line].
Definition ver : list Z := [5; 0; 2; 4].
Definition shape_records : list (record * model) := fst (stream_models 100 ver (shapes_file, Finished)).
Fixpoint in_a_row (l : list (record * model)) : forest (record * model) := match l with [] => FNil | x :: r => FCons x FNil (in_a_row r) end.
Definition shape_forest : forest (record * model) := match shape_records with x :: r => FCons x (in_a_row r) FNil | [] => FNil end.
Definition made (repr : _) (object : list Z) : option (list xnode) :=
  let '(evs, o) := xmlevents repr object 4 (hwp5file_events (fun n => Ok (zs "2016-02-15 10:40:00")) None ver
    Props_Oleprops.demo_stream (stream_models 100 ver (shapes_file, Finished)) [(0, stream_models 100 ver (shaped_section, Finished))]) in
  match o with Finished => build [] [] (read_back [] evs) | _ => None end.
Definition measured (k : string) (x : xnode) : list Z := zs k.
Example C88_case : forall repr object,
  snd (stream_models 100 ver (shapes_file, Finished)) = Finished /\ preorder 0 shape_forest = map (fun rm => (r_level (fst rm), rm)) shape_records /\
  match shape_records with x :: r => one_mappings shape_forest x (in_a_row r) /\ map (fun s => List.length (shapes_of s (in_a_row r))) ["CharShape"; "ParaShape"; "Style"] = [2; 2; 2]%nat | [] => False end /\
  match made repr object with
  | Some document =>
      map (fun x => (attr "align" x, attr "linespacing" x)) (nodes_named_in "ParaShape" document) = [(Some (zs "both"), Some (zs "160")); (Some (zs "center"), Some (zs "160"))] /\
      map (fun x => (attr "bold" x, attr "text-color" x)) (nodes_named_in "CharShape" document) = [(Some (zs "0"), Some (zs "#000000")); (Some (zs "1"), Some (zs "#ff0000"))] /\
      map (fun y => (opendoc_text y, (paragraph_property (written_styles measured (fun _ => []) document) y "fo:text-align", paragraph_property (written_styles measured (fun _ => []) document) y "fo:break-before")))
        (filter (named_node "text:p") (written_text measured (fun _ => []) document)) =
        [(zs "ab" ++ [10], (Some (zs "center"), None)); (zs "cd" ++ [10], (Some (zs "justify"), Some (zs "page")))] /\
      map (fun p => map (fun y => (page_text y, cascade (page_css measured document) (element_of y) [] "text-align")) (filter (named_node "p") (show (fun _ => []) document [] p)))
        (nodes_named_in "Paragraph" document) = [[(zs "ab" ++ [10], Some (zs "center"))]; [(zs "cd" ++ [10], Some (zs "justify"))]]
  | None => False
  end.
Proof.
  intros repr object. split; [vm_compute; reflexivity|]. split; [vm_compute; reflexivity|]. split.
  - unfold shape_forest. destruct shape_records as [|x r] eqn:E; [vm_compute in E; discriminate|].
    assert (Ex : x = hd x shape_records) by now rewrite E. assert (Er : r = tl shape_records) by now rewrite E.
    split; [apply (om FNil x (in_a_row r) FNil); [rewrite Ex; vm_compute; reflexivity|constructor|constructor|rewrite Er; vm_compute; repeat constructor; discriminate]|rewrite Er; vm_compute; reflexivity].
  - vm_compute. repeat split.
Qed.
