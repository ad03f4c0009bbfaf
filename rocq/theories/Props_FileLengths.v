(** C90: lengths of documents made from files. *)
From Coq Require Import ZArith QArith String List Bool Lia.
From Verif Require Import Props_Html Props_Opendoc.
From Verif Require Import Base BaseFacts Model_Tree Model_XmlModel Model_Text Model_Record Model_Bintype Model_Models Model_Oleprops Model_Embed
  Model_XmlText Model_XmlElement Model_XmlFile Spec_Tree Spec_Section Spec_XmlText Spec_Bintype Spec_Models Spec_Oleprops Spec_Layouts Spec_XmlElement Spec_XmlFile Spec_XmlSummary Spec_XmlHwp
  Model_Dataio Model_Plaintext Spec_Plaintext Proof_Text Proof_OleText Model_Html Spec_Html Model_Opendoc Spec_Opendoc Model_Lengths Spec_Lengths Spec_Formatting Proof_Formatting5 Spec_FileLengths Proof_FileLengths.
From Verif Require Proof_Layouts Props_Html Props_Opendoc Props_Lengths Props_Formatting Props_Models Props_Oleprops Proof_Lengths3.
Import ListNotations.
Open Scope string_scope.
Open Scope list_scope.
Open Scope Z_scope.

(** ** Pages

    If the sections have different numbers, hwp5odt makes a page layout for each,
    with the width, height and margins in its page record. *)
Theorem C90_pages : forall show other version x kids sections document m d b names, prints show ->
  document_of version x kids sections document m d b -> whole_tables document ->
  texts_are "local_name" (shapes_of "Style" kids) names -> local_fine names ->
  NoDup (map fst sections) -> Forall (fun s => 0 <= fst s) sections ->
  forall s out rp, In s sections -> models_of version Finished [] (snd s) out Finished -> page_record out rp ->
  exists lay mas, page_layouts (zs "PageLayout-" ++ fmt_d (fst s + 1)) (styles_xml (odt_measure show other) document) = [lay] /\
    master_pages (zs "MasterPage-" ++ fmt_d (fst s + 1)) (styles_xml (odt_measure show other) document) = [mas] /\
    attr "style:page-layout-name" mas = Some (zs "PageLayout-" ++ fmt_d (fst s + 1)) /\
    let value := says_itself lay "style:page-layout-properties" in
    (forall side n, In side sides -> number_in 32 (side ++ "_offset") rp n -> value_says (value ("fo:margin-" ++ side)%string) "cm" (centimetres (inject_Z n)) hundredth) /\
    (forall o w h pw ph, chosen_bits "attr" "orientation" o rp -> number_in 32 "width" rp w -> number_in 32 "height" rp h ->
       In (o, (pw, ph)) [("PORTRAIT", (w, h)); ("LANDSCAPE", (h, w))] ->
       value_says (value "fo:page-width") "cm" (centimetres (inject_Z pw)) hundredth /\ value_says (value "fo:page-height") "cm" (centimetres (inject_Z ph)) hundredth).
Proof.
  intros sh ot version x kids sections document m d b names P HD WT TN LF ND NN s out rp HS HM HP. apply In_nth_error in HS as (i & ES).
  destruct (section_page_at _ _ _ _ _ _ _ _ _ _ _ _ HD ES HM HP) as (y & p & EY & EA & EP & M & T).
  assert (N0 : 0 <= fst s) by (rewrite Forall_forall in NN; exact (NN s (nth_error_In _ _ ES))).
  pose proof (section_ids _ _ _ _ _ _ _ _ HD) as EI.
  assert (F : Forall (fun s => exists k, attr "section-id" s = Some (fmt_d (Z.of_nat k))) (children_named "SectionDef" b)).
  { apply Forall_forall. intros z HZ. apply (in_map (attr "section-id")) in HZ. rewrite EI in HZ. apply in_map_iff in HZ as (s' & <- & HS'). exists (Z.to_nat (fst s')).
    rewrite Forall_forall in NN. now rewrite Z2Nat.id by exact (NN s' HS'). }
  assert (D : NoDup (map (attr "section-id") (children_named "SectionDef" b))).
  { rewrite EI, <- (map_map fst (fun n => Some (fmt_d n))). apply FinFun.Injective_map_NoDup; [|exact ND]. intros a c [= E]. exact (fmt_d_inj _ _ E). }
  assert (EA' : attr "section-id" y = Some (fmt_d (Z.of_nat (Z.to_nat (fst s))))) by now rewrite Z2Nat.id.
  destruct (Props_Lengths.C89_pages sh ot document m d b y p _ P (text_document _ _ _ _ _ _ _ _ HD names WT TN LF) F D (nth_error_In _ _ EY) EA' EP) as (lay & mas & E1 & E2 & E3 & Ms & Po & La).
  rewrite Nat2Z.inj_succ, Z2Nat.id in E1, E2, E3 by exact N0. exists lay, mas. split; [exact E1|]. split; [exact E2|]. split; [exact E3|]. cbv zeta.
  assert (NA : forall a key n, attribute_name key = zs a -> key <> "<text>" -> form_of "PageDef" key = Spec_XmlElement.Plain -> number_in 32 key rp n -> int_attr 32 a p n).
  { intros a key n H1 H2 H3 H4. refine (number_attr 32 a key rp p n H1 H2 _ M H4). rewrite T. exact H3. }
  split.
  - intros side n HI HN. apply (Ms side n HI). repeat (destruct HI as [<-|HI]; [refine (NA _ _ n _ _ _ HN); [reflexivity|discriminate|reflexivity]|]). contradiction.
  - intros o w h pw ph C HW HH HI. pose proof (NA "width" "width" w eq_refl ltac:(discriminate) eq_refl HW) as W. pose proof (NA "height" "height" h eq_refl ltac:(discriminate) eq_refl HH) as H.
    assert (A : attr "orientation" p = Some (map small_letter (zs o))).
    { refine (bits_attr "orientation" "orientation" "attr" o _ rp p eq_refl _ _ M C); [rewrite T; reflexivity|]. destruct HI as [[= <- <- <-]|[[= <- <- <-]|[]]]; cbn; intuition discriminate. }
    destruct HI as [[= <- <- <-]|[[= <- <- <-]|[]]]; [exact (Po w h A W H)|exact (La w h A W H)].
Qed.
Print Assumptions C90_pages.

(** hwp5html makes boxes of these widths and margins around the text. *)
Theorem C90_html_pages : forall show other style version x kids sections document m d b, prints show ->
  document_of version x kids sections document m d b -> NoDup (map fst sections) -> Forall (fun s => 0 <= fst s) sections ->
  forall i s out rp, nth_error sections i = Some s -> models_of version Finished [] (snd s) out Finished -> page_record out rp ->
  exists section body_ box area text, nth_error (children_named "SectionDef" b) i = Some section /\ In body_ (body style document) /\
    In box (kids_of_node body_) /\ In area (kids_of_node box) /\ In text (kids_of_node area) /\
    kids_of_node text = flat_map (Model_Html.show style document [section; b; d]) (kids_of_node section) /\
    let value := cascade (page_css (css_measure show other) document) in
    let out := [element_of body_] in
    (forall o n w, In (o, n) [("PORTRAIT", "width"); ("LANDSCAPE", "height")] -> chosen_bits "attr" "orientation" o rp -> number_in 24 n rp w ->
       value_says (value (element_of box) out "width") "mm" (millimetres (inject_Z w)) css_hundredth) /\
    (forall side n, In side sides -> number_in 24 (side ++ "_offset") rp n ->
       value_says (value (element_of area) (element_of box :: out) ("margin-" ++ side)%string) "mm" (millimetres (inject_Z n)) css_hundredth) /\
    (forall side w n, In (side, w) [("top", "header"); ("bottom", "footer")] -> number_in 24 (w ++ "_offset") rp n ->
       value_says (value (element_of text) (element_of area :: element_of box :: out) ("padding-" ++ side)%string) "mm" (millimetres (inject_Z n)) css_hundredth).
Proof.
  intros sh ot style version x kids sections document m d b P HD ND NN i s out rp ES HM HP.
  destruct (section_page_at _ _ _ _ _ _ _ _ _ _ _ _ HD ES HM HP) as (y & p & EY & EA & EP & M & T).
  assert (N0 : 0 <= fst s) by (rewrite Forall_forall in NN; exact (NN s (nth_error_In _ _ ES))).
  assert (EA' : attr "section-id" y = Some (fmt_d (Z.of_nat (Z.to_nat (fst s))))) by now rewrite Z2Nat.id.
  pose proof (section_ids _ _ _ _ _ _ _ _ HD) as EI.
  assert (Dd : In d (filter (named_node "HwpDoc") document)) by (rewrite (do_document _ _ _ _ _ _ _ _ HD); left; reflexivity).
  assert (Db : children_named "BodyText" d = [b]) by exact (do_body _ _ _ _ _ _ _ _ HD).
  assert (D : NoDup (map (value_of "section-id") (flat_map (children_named "SectionDef") (flat_map (children_named "BodyText") (filter (named_node "HwpDoc") document))))).
  { rewrite (do_document _ _ _ _ _ _ _ _ HD). cbn [flat_map]. rewrite Db, !app_nil_r. cbn [flat_map]. rewrite app_nil_r.
    assert (E : map (value_of "section-id") (children_named "SectionDef" b) = map fmt_d (map fst sections)).
    { rewrite map_map. revert EI. generalize (children_named "SectionDef" b). clear. induction sections as [|s l IH]; intros [|z l'] E; try discriminate; [reflexivity|]. cbn [map] in *. injection E as E1 E2. f_equal; [|exact (IH _ E2)].
      unfold value_of. now rewrite E1. }
    rewrite E. apply FinFun.Injective_map_NoDup; [|exact ND]. intros a c Q. exact (fmt_d_inj _ _ Q). }
  destruct (Props_Lengths.C89_html_pages sh ot style document d b y p _ P Dd ltac:(rewrite Db; left; reflexivity) (nth_error_In _ _ EY) D EA' EP) as (body_ & box & area & text & I1 & I2 & I3 & I4 & I5 & Wd & Mg & Pd).
  exists y, body_, box, area, text. split; [exact EY|]. split; [exact I1|]. split; [exact I2|]. split; [exact I3|]. split; [exact I4|]. split; [exact I5|]. cbv zeta in *.
  assert (NA : forall a key n, attribute_name key = zs a -> key <> "<text>" -> form_of "PageDef" key = Spec_XmlElement.Plain -> number_in 24 key rp n -> int_attr 24 a p n).
  { intros a key n H1 H2 H3 H4. refine (number_attr 24 a key rp p n H1 H2 _ M H4). rewrite T. exact H3. }
  assert (A : forall o, In o orientations -> chosen_bits "attr" "orientation" o rp -> attr "orientation" p = Some (map small_letter (zs o))).
  { intros o HI C. refine (bits_attr "orientation" "orientation" "attr" o _ rp p eq_refl _ _ M C); [rewrite T; reflexivity|]. destruct HI as [<-|[<-|[]]]; cbn; intuition discriminate. }
  split; [|split].
  - intros o n w HI C HN. destruct HI as [[= <- <-]|[[= <- <-]|[]]].
    + apply (Wd "portrait" "width"); [cbn; tauto|exact (A "PORTRAIT" ltac:(cbn; tauto) C)|]. refine (NA _ _ w _ _ _ HN); [reflexivity|discriminate|reflexivity].
    + apply (Wd "landscape" "height"); [cbn; tauto|exact (A "LANDSCAPE" ltac:(cbn; tauto) C)|]. refine (NA _ _ w _ _ _ HN); [reflexivity|discriminate|reflexivity].
  - intros side n HI HN. apply (Mg side n HI). repeat (destruct HI as [<-|HI]; [refine (NA _ _ n _ _ _ HN); [reflexivity|discriminate|reflexivity]|]). contradiction.
  - intros side w n HI HN. apply (Pd side w n HI). repeat (destruct HI as [[= <- <-]|HI]; [refine (NA _ _ n _ _ _ HN); [reflexivity|discriminate|reflexivity]|]). contradiction.
Qed.
Print Assumptions C90_html_pages.

(** ** Paragraphs *)
Lemma shape_number : forall a key ps shape n, m_type (snd ps) = "ParaShape" -> made_for (snd ps) shape -> attribute_name key = zs a -> key <> "<text>" ->
  form_of "ParaShape" key = Spec_XmlElement.Plain -> forall bits, number_in bits key ps n -> int_attr bits a shape n.
Proof. intros a key ps shape n T M H1 H2 H3 bits H4. refine (number_attr bits a key ps shape n H1 H2 _ M H4). rewrite T. exact H3. Qed.
Lemma shape_spacing : forall o ps shape, m_type (snd ps) = "ParaShape" -> made_for (snd ps) shape -> In o spacings -> chosen_bits "parashapeflags" "linespacing_type" o ps ->
  attr "linespacing-type" shape = Some (map small_letter (zs o)).
Proof.
  intros o ps shape T M HI C. refine (bits_attr "linespacing-type" "linespacing_type" "parashapeflags" o _ ps shape eq_refl _ _ M C); [rewrite T; reflexivity|].
  repeat (destruct HI as [<-|HI]; [cbn; intuition discriminate|]). contradiction.
Qed.

(** The paragraphs of a section, with the indent, margins and space of lines that
    are in the records of their shapes; in hwp5odt: *)
Theorem C90_paragraphs : forall show other geometry version x kids sections document m d b names, prints show ->
  document_of version x kids sections document m d b -> whole_tables document ->
  texts_are "local_name" (shapes_of "Style" kids) names -> local_fine names ->
  forall i s out, nth_error sections i = Some s -> models_of version Finished [] (snd s) out Finished ->
  exists section front back, nth_error (children_named "SectionDef" b) i = Some section /\ flow section = front ++ back /\
    Forall2 (fun rm p => made_for (snd rm) p) (top_records out) back /\
    forall j rm p st ps ps', nth_error (top_records out) j = Some rm -> nth_error back j = Some p ->
      Spec_Formatting.points "style_id" rm (shapes_of "Style" kids) st -> Spec_Formatting.points "parashape_id" rm (shapes_of "ParaShape" kids) ps -> Spec_Formatting.points "parashape_id" st (shapes_of "ParaShape" kids) ps' ->
      exists y, In y (written_text (odt_measure show other) geometry document) /\ named_node "text:p" y = true /\ (simple_text p = true -> opendoc_text y = apply_templates p) /\
        let value := paragraph_property (written_styles (odt_measure show other) geometry document) y in
        (forall n, number_in 32 "indent" ps n -> value_says (value "fo:text-indent") "pt" (Spec_Lengths.points (half n)) exactly) /\
        (forall side n, In side ["right"; "top"; "bottom"] -> number_in 32 ("doubled_margin_" ++ side) ps n -> value_says (value ("fo:margin-" ++ side)%string) "pt" (Spec_Lengths.points (half n)) exactly) /\
        (forall n i, number_in 32 "doubled_margin_left" ps n -> number_in 32 "indent" ps i -> value_says (value "fo:margin-left") "pt" (Spec_Lengths.points (half (n - Z.min 0 i))) exactly) /\
        (forall n, chosen_bits "parashapeflags" "linespacing_type" "RATIO" ps -> number_in 28 "linespacing" ps n -> value_says (value "fo:line-height") "%" (inject_Z n) (6 # 1000000)) /\
        (forall n, chosen_bits "parashapeflags" "linespacing_type" "FIXED" ps -> number_in 32 "linespacing" ps n -> value_says (value "fo:line-height") "pt" (Spec_Lengths.points (half n)) exactly) /\
        (forall n, chosen_bits "parashapeflags" "linespacing_type" "SPACEONLY" ps -> number_in 32 "linespacing" ps n -> value_says (value "style:line-spacing") "pt" (Spec_Lengths.points (half n) / 2) exactly).
Proof.
  intros sh ot geometry version x kids sections document m d b names P HD WT TN LF i s out ES HM.
  destruct (section_at _ _ _ _ _ _ _ _ HD i s out ES HM) as (y & front & back & EY & EF & FB). exists y, front, back. split; [exact EY|]. split; [exact EF|]. split; [exact FB|].
  intros j rm p st ps ps' ER EP P1 P2 P3. destruct (Forall2_nth_l _ _ _ _ _ FB j rm ER) as (p' & EP' & M). rewrite EP in EP'. injection EP' as <-.
  assert (IB : In p back) by exact (nth_error_In _ _ EP). assert (IF : In p (flow y)) by (rewrite EF; apply in_or_app; now right).
  pose proof (para_type _ _ _ _ _ EF IB M) as TP.
  destruct (points_refers _ _ _ _ _ _ _ _ HD "style-id" "style_id" "Style" rm p st ltac:(cbn; tauto) eq_refl ltac:(discriminate) ltac:(rewrite TP; reflexivity) M P1) as (st' & R1 & M1 & T1).
  destruct (points_refers _ _ _ _ _ _ _ _ HD "parashape-id" "parashape_id" "ParaShape" rm p ps ltac:(cbn; tauto) eq_refl ltac:(discriminate) ltac:(rewrite TP; reflexivity) M P2) as (shape & R2 & M2 & T2).
  destruct (points_refers _ _ _ _ _ _ _ _ HD "parashape-id" "parashape_id" "ParaShape" st st' ps' ltac:(cbn; tauto) eq_refl ltac:(discriminate) ltac:(rewrite T1; reflexivity) M1 P3) as (shape' & R3 & _ & _).
  destruct (Props_Lengths.C89_paragraph sh ot geometry document m d b p st' shape shape' P (text_document _ _ _ _ _ _ _ _ HD names WT TN LF)
    (flow_shown b y p (nth_error_In _ _ EY) IF) (flow_named _ _ IF) R1 R2 R3) as (z & Z1 & Z2 & Z3 & Q1 & Q2 & Q3 & Q4 & Q5 & Q6).
  exists z. split; [exact Z1|]. split; [exact Z2|]. split; [exact Z3|]. cbv zeta in *.
  pose proof (fun a key n H1 H2 H3 => shape_number a key ps shape n T2 M2 H1 H2 H3) as NA.
  split; [|split; [|split; [|split; [|split]]]].
  - intros n HN. apply Q1. exact (NA "indent" "indent" n eq_refl ltac:(discriminate) eq_refl 32 HN).
  - intros side n HI HN. apply (Q2 side n HI). repeat (destruct HI as [<-|HI]; [refine (NA _ _ n _ _ _ 32 HN); [reflexivity|discriminate|reflexivity]|]). contradiction.
  - intros n i' HN HI. apply Q3; [exact (NA "doubled-margin-left" "doubled_margin_left" n eq_refl ltac:(discriminate) eq_refl 32 HN)|exact (NA "indent" "indent" i' eq_refl ltac:(discriminate) eq_refl 32 HI)].
  - intros n C HN. apply Q4; [exact (shape_spacing "RATIO" ps shape T2 M2 ltac:(cbn; tauto) C)|exact (NA "linespacing" "linespacing" n eq_refl ltac:(discriminate) eq_refl 28 HN)].
  - intros n C HN. apply Q5; [exact (shape_spacing "FIXED" ps shape T2 M2 ltac:(cbn; tauto) C)|exact (NA "linespacing" "linespacing" n eq_refl ltac:(discriminate) eq_refl 32 HN)].
  - intros n C HN. apply Q6; [exact (shape_spacing "SPACEONLY" ps shape T2 M2 ltac:(cbn; tauto) C)|exact (NA "linespacing" "linespacing" n eq_refl ltac:(discriminate) eq_refl 32 HN)].
Qed.
Print Assumptions C90_paragraphs.

(** In hwp5html: *)
Theorem C90_html_paragraphs : forall show other style version x kids sections document m d b names, prints show ->
  document_of version x kids sections document m d b -> texts_are "name" (shapes_of "Style" kids) names -> css_fine names ->
  forall i s out, nth_error sections i = Some s -> models_of version Finished [] (snd s) out Finished ->
  exists section front back, nth_error (children_named "SectionDef" b) i = Some section /\ flow section = front ++ back /\
    Forall2 (fun rm p => made_for (snd rm) p) (top_records out) back /\
    forall j rm p st ps ps' up outer, nth_error (top_records out) j = Some rm -> nth_error back j = Some p ->
      Spec_Formatting.points "style_id" rm (shapes_of "Style" kids) st -> chosen_bits "flags" "kind" "PARAGRAPH" st ->
      Spec_Formatting.points "parashape_id" rm (shapes_of "ParaShape" kids) ps -> Spec_Formatting.points "parashape_id" st (shapes_of "ParaShape" kids) ps' ->
      exists y rest, Model_Html.show style document up p = y :: rest /\ named_node "p" y = true /\
        let value := cascade (page_css (css_measure show other) document) (element_of y) outer in
        (forall t r b l, number_in 32 "doubled_margin_top" ps t -> number_in 32 "doubled_margin_right" ps r -> number_in 32 "doubled_margin_bottom" ps b -> number_in 32 "doubled_margin_left" ps l ->
           exists v, value "margin" = Some v /\ says_four v "pt" (Spec_Lengths.points (half t)) (Spec_Lengths.points (half r)) (Spec_Lengths.points (half b)) (Spec_Lengths.points (half l)) exactly) /\
        (forall n, number_in 32 "indent" ps n -> value_says (value "text-indent") "pt" (Spec_Lengths.points (half n)) exactly) /\
        (forall n, number_in 32 "indent" ps n -> n < 0 -> value_says (value "padding-left") "pt" (Spec_Lengths.points (half (- n))) exactly) /\
        (forall n n', number_in 32 "indent" ps n -> 0 <= n -> number_in 32 "indent" ps' n' -> 0 <= n' -> value "padding-left" = None) /\
        (forall n, chosen_bits "parashapeflags" "linespacing_type" "RATIO" ps -> number_in 32 "linespacing" ps n -> value_says (value "min-height") "em" (inject_Z n / 100) exactly).
Proof.
  intros sh ot style version x kids sections document m d b names P HD TN LF i s out ES HM.
  destruct (section_at _ _ _ _ _ _ _ _ HD i s out ES HM) as (y & front & back & EY & EF & FB). exists y, front, back. split; [exact EY|]. split; [exact EF|]. split; [exact FB|].
  intros j rm p st ps ps' up outer ER EP P1 K P2 P3. destruct (Forall2_nth_l _ _ _ _ _ FB j rm ER) as (p' & EP' & M). rewrite EP in EP'. injection EP' as <-.
  assert (IB : In p back) by exact (nth_error_In _ _ EP). assert (IF : In p (flow y)) by (rewrite EF; apply in_or_app; now right).
  pose proof (para_type _ _ _ _ _ EF IB M) as TP.
  destruct (points_refers _ _ _ _ _ _ _ _ HD "style-id" "style_id" "Style" rm p st ltac:(cbn; tauto) eq_refl ltac:(discriminate) ltac:(rewrite TP; reflexivity) M P1) as (st' & R1 & M1 & T1).
  destruct (points_refers _ _ _ _ _ _ _ _ HD "parashape-id" "parashape_id" "ParaShape" rm p ps ltac:(cbn; tauto) eq_refl ltac:(discriminate) ltac:(rewrite TP; reflexivity) M P2) as (shape & R2 & M2 & T2).
  destruct (points_refers _ _ _ _ _ _ _ _ HD "parashape-id" "parashape_id" "ParaShape" st st' ps' ltac:(cbn; tauto) eq_refl ltac:(discriminate) ltac:(rewrite T1; reflexivity) M1 P3) as (shape' & R3 & M3 & T3).
  pose proof (bits_attr "kind" "kind" "flags" "PARAGRAPH" 2 st st' eq_refl ltac:(rewrite T1; reflexivity) ltac:(cbn; intuition discriminate) M1 K) as KD.
  destruct (Props_Lengths.C89_html_paragraph sh ot style document m p st' shape shape' up outer P (do_mapped _ _ _ _ _ _ _ _ HD) (css_names _ _ _ _ _ _ _ _ HD names TN LF) (flow_named _ _ IF) R1 KD R2 R3)
    as (z & rest & Z1 & Z2 & Q1 & Q2 & Q3 & _ & Q5 & Q6).
  exists z, rest. split; [exact Z1|]. split; [exact Z2|]. cbv zeta in *.
  pose proof (fun a key n H1 H2 H3 => shape_number a key ps shape n T2 M2 H1 H2 H3) as NA. pose proof (fun a key n H1 H2 H3 => shape_number a key ps' shape' n T3 M3 H1 H2 H3) as NA'.
  split; [|split; [|split; [|split]]].
  - intros t r b' l HT HR HB HL. apply Q1; [refine (NA _ _ t _ _ _ 32 HT)|refine (NA _ _ r _ _ _ 32 HR)|refine (NA _ _ b' _ _ _ 32 HB)|refine (NA _ _ l _ _ _ 32 HL)]; first [reflexivity|discriminate].
  - intros n HN. apply Q2. exact (NA "indent" "indent" n eq_refl ltac:(discriminate) eq_refl 32 HN).
  - intros n HN L. apply Q3; [|exact L]. exact (NA "indent" "indent" n eq_refl ltac:(discriminate) eq_refl 32 HN).
  - intros n n' HN L HN' L'. apply (Q5 n n'); [exact (NA "indent" "indent" n eq_refl ltac:(discriminate) eq_refl 32 HN)|exact L|exact (NA' "indent" "indent" n' eq_refl ltac:(discriminate) eq_refl 32 HN')|exact L'].
  - intros n C HN. apply Q6; [exact (shape_spacing "RATIO" ps shape T2 M2 ltac:(cbn; tauto) C)|exact (NA "linespacing" "linespacing" n eq_refl ltac:(discriminate) eq_refl 32 HN)].
Qed.
Print Assumptions C90_html_paragraphs.

(** ** Which bytes these are *)
Theorem C90_page_bytes : forall version parent r payload m, version_ok version -> Proof_Layouts.node_ok parent -> all_bytes payload -> (40 <= List.length payload)%nat ->
  reads version parent 73 payload (Ok m) ->
  (forall k key, In (k, key) page_numbers -> In (key, VInt (word_at k payload)) (m_content m)) /\
  (forall o, nth_error orientations (Z.to_nat (nth 36 payload 0 mod 2)) = Some o -> chosen_bits "attr" "orientation" o (r, m)).
Proof. exact page_bytes. Qed.
Print Assumptions C90_page_bytes.
Theorem C90_shape_bytes : forall version parent r payload m, version_ok version -> Proof_Layouts.node_ok parent -> all_bytes payload -> (28 <= List.length payload)%nat ->
  reads version parent 25 payload (Ok m) ->
  (forall k key, In (k, key) shape_numbers -> In (key, VInt (signed_at k payload)) (m_content m)) /\
  (forall o, nth_error spacings (Z.to_nat (nth 0 payload 0 mod 4)) = Some o -> chosen_bits "parashapeflags" "linespacing_type" o (r, m)).
Proof. exact shape_bytes. Qed.
Print Assumptions C90_shape_bytes.

(** The file of C88 with a page record: A4, 210 by 297 millimetres, on its side;
    margins of 30, 30, 20 and 15 millimetres; the second paragraph shape has an
    indent of -13.1 points and a left margin of 20 points. *)
Definition le4 (n : Z) : list Z := [n mod 256; n / 256 mod 256; n / 65536 mod 256; n / 16777216 mod 256].
Definition page_payload (w h l r t b hd ft bits : Z) : list Z := flat_map le4 [w; h; l; r; t; b; hd; ft; 0; bits].
Definition moved_shape : list Z := le4 12 ++ le4 4000 ++ le4 0 ++ le4 (-2620) ++ le4 1000 ++ le4 201 ++ le4 160 ++ repeat 0 14 ++ le4 0.
Definition lengths_file : list record := map (fun r => if (r_tagid r =? 25) && (nth 0 (r_payload r) 0 =? 12) then Props_Models.rec 25 1 moved_shape else r) Props_Formatting.shapes_file.
Definition paged_section : list record :=
  flat_map (fun r => if r_tagid r =? 71 then [r; Props_Models.rec 73 2 (page_payload 59528 84188 8504 8504 5668 4252 4252 4252 1)] else [r]) Props_Formatting.shaped_section.
Definition section_models : list (record * model) := fst (stream_models 100 Props_Formatting.ver (paged_section, Finished)).
Definition made (repr : _) (object : list Z) : option (list xnode) :=
  let '(evs, o) := xmlevents repr object 4 (hwp5file_events (fun n => Ok (zs "2016-02-15 10:40:00")) None Props_Formatting.ver
    Props_Oleprops.demo_stream (stream_models 100 Props_Formatting.ver (lengths_file, Finished)) [(0, stream_models 100 Props_Formatting.ver (paged_section, Finished))]) in
  match o with Finished => build [] [] (read_back [] evs) | _ => None end.
Definition no_other (k : string) (x : xnode) : list Z := zs "".
Example C90_case : forall repr object,
  snd (stream_models 100 Props_Formatting.ver (lengths_file, Finished)) = Finished /\ snd (stream_models 100 Props_Formatting.ver (paged_section, Finished)) = Finished /\
  (exists rp, page_record section_models rp /\ number_in 24 "width" rp 59528 /\ number_in 24 "bottom_offset" rp 4252) /\
  match made repr object with
  | Some document =>
      map (fun x => (attr "section-id" x, map (fun p => (attr "width" p, attr "orientation" p)) (children_named "PageDef" x))) (nodes_named_in "SectionDef" document) =
        [(Some (zs "0"), [(Some (zs "59528"), Some (zs "landscape"))])] /\
      map (fun p => map (fun x => says_itself x "style:page-layout-properties" p) (page_layouts (zs "PageLayout-1") (styles_xml (odt_measure Proof_Lengths3.show15 no_other) document)))
        ["fo:page-width"; "fo:page-height"; "fo:margin-left"; "fo:margin-right"; "fo:margin-top"; "fo:margin-bottom"] = map (fun v => [Some (zs v)]) ["29.7cm"; "21cm"; "3cm"; "3cm"; "2cm"; "1.5cm"] /\
      map (fun y => (opendoc_text y, map (paragraph_property (written_styles (odt_measure Proof_Lengths3.show15 no_other) (fun _ => []) document) y) ["fo:text-indent"; "fo:margin-left"; "fo:margin-bottom"; "fo:line-height"]))
        (filter (named_node "text:p") (written_text (odt_measure Proof_Lengths3.show15 no_other) (fun _ => []) document)) =
        [(zs "ab" ++ [10], map (fun v => Some (zs v)) ["-13.1pt"; "33.1pt"; "1.005pt"; "160%"]); (zs "cd" ++ [10], map (fun v => Some (zs v)) ["0pt"; "0.1pt"; "0pt"; "160%"])] /\
      map (fun p => map (fun y => (page_text y, map (cascade (page_css (css_measure Proof_Lengths3.show15 no_other) document) (element_of y) []) ["text-indent"; "margin"]))
        (filter (named_node "p") (Model_Html.show (fun _ => []) document [] p))) (nodes_named_in "Paragraph" document) =
        [[(zs "ab" ++ [10], map (fun v => Some (zs v)) ["-13.1pt"; "5pt 0pt 1.005pt 20pt"])]; [(zs "cd" ++ [10], map (fun v => Some (zs v)) ["0pt"; "0pt 0pt 0pt 0.1pt"])]]
  | None => False
  end.
Proof.
  intros repr object. split; [vm_compute; reflexivity|]. split; [vm_compute; reflexivity|]. split.
  - assert (E : match skipn 4 section_models with
        | rs :: rp :: after => type_of rs = "SectionDef" /\ type_of rp = "PageDef" /\ r_level (fst rp) = r_level (fst rs) + 1 /\
            forallb (fun rm => negb (String.eqb (type_of rm) "SectionDef") && negb (String.eqb (type_of rm) "PageDef")) (firstn 4 section_models ++ after) = true /\
            dict_get "width" (m_content (snd rp)) = Some (VInt 59528) /\ dict_get "bottom_offset" (m_content (snd rp)) = Some (VInt 4252)
        | _ => False end) by (vm_compute; repeat split).
    destruct (skipn 4 section_models) as [|rs [|rp after]] eqn:S; try contradiction. destruct E as (E1 & E2 & E3 & E4 & E5 & E6). exists rp. split; [|split; (split; [now apply dict_in|lia])].
    exists (firstn 4 section_models), rs, after. split; [rewrite <- S; symmetry; apply firstn_skipn|]. split; [exact E1|]. split; [exact E2|]. split; [exact E3|].
    apply Forall_forall. intros rm HI. rewrite forallb_forall in E4. pose proof (E4 rm HI) as E. apply andb_true_iff in E as [X Y]. apply negb_true_iff in X, Y. split; apply String.eqb_neq; assumption.
  - vm_compute. repeat split.
Qed.
