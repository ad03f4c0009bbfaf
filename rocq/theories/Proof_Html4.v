(** Proofs about the pages of hwp5html, continued: paragraphs, texts and tables as
    they are shown. *)
From Coq Require Import ZArith String List Bool Lia.
From Verif Require Import Base Model_Text Model_XmlText Model_Plaintext Model_Html Spec_Text Spec_Html Proof_Html Proof_Html2 Proof_Html3.
Import ListNotations.
Open Scope string_scope.
Open Scope list_scope.
Open Scope Z_scope.

Lemma kind_is : forall s v x, attr s x = Some (zs v) -> attr_is s v x = true.
Proof. intros s v x A. unfold attr_is. rewrite A. apply name_is_spec. reflexivity. Qed.

Lemma align_is : forall x, align_value x = alignment x.
Proof.
  intros x. unfold align_value, alignment, attr_is. destruct (attr "align" x) as [t|]; [|reflexivity]. unfold name_is, text_eqb.
  destruct (list_eq_dec Z.eq_dec t (zs "center")) as [->|_]; [reflexivity|]. destruct (list_eq_dec Z.eq_dec t (zs "left")) as [->|_]; [reflexivity|].
  destruct (list_eq_dec Z.eq_dec t (zs "right")) as [->|_]; [reflexivity|]. destruct (list_eq_dec Z.eq_dec t (zs "both")); reflexivity.
Qed.
Lemma para_always : forall measure x, declared (zs "text-align") (para_declarations measure x) = Some (alignment x) /\
  declared (zs "margin") (para_declarations measure x) = Some (measure "margin" x) /\ declared (zs "text-indent") (para_declarations measure x) = Some (measure "text-indent" x).
Proof.
  intros measure x. rewrite <- align_is. unfold para_declarations, when.
  destruct (compares (fun n => n <? 0) "indent" x), (attr_is "linespacing-type" "ratio" x); repeat split.
Qed.
Lemma char_always : forall x, declared (zs "color") (char_declarations x) = Some (value_of "text-color" x).
Proof.
  intros x. unfold char_declarations, when, decoration.
  destruct (compares (Z.eqb 1) "italic" x), (compares (Z.eqb 1) "bold" x), (attr_is "underline" "underline" x), (attr_is "underline" "overline" x), (attr_is "underline" "line_through" x); reflexivity.
Qed.
Lemma char_bold : forall x, declared (zs "font-weight") (char_declarations x) = if compares (Z.eqb 1) "bold" x then Some (zs "bold") else None.
Proof.
  intros x. unfold char_declarations, when, decoration.
  destruct (compares (Z.eqb 1) "italic" x), (compares (Z.eqb 1) "bold" x), (attr_is "underline" "underline" x), (attr_is "underline" "overline" x), (attr_is "underline" "line_through" x); reflexivity.
Qed.

Lemma classes_of : forall n v r kids, element_of (Element n ((zs "class", v) :: r) kids) = (n, words [] v).
Proof. intros. unfold element_of. cbn [lookup]. destruct (list_eq_dec Z.eq_dec (zs "class") (zs "class")); [reflexivity|congruence]. Qed.

Section Shown.
Variable measure : string -> xnode -> list Z.
Variable style : list xnode -> list Z.
Variable document : list xnode.
Notation rules := (styles_css measure document ++ page_rules measure document).

Lemma own_paragraph : forall m p st ps ps' up outer, mapped document m -> names_fine (children_named "Style" m) ->
  named_node "Paragraph" p = true -> refers "style-id" p (children_named "Style" m) st -> attr "kind" st = Some (zs "paragraph") ->
  refers "parashape-id" p (children_named "ParaShape" m) ps -> refers "parashape-id" st (children_named "ParaShape" m) ps' ->
  exists y rest, show style document up p = y :: rest /\
    cascade rules (element_of y) outer "text-align" = Some (alignment ps) /\
    cascade rules (element_of y) outer "margin" = Some (measure "margin" ps) /\
    cascade rules (element_of y) outer "text-indent" = Some (measure "text-indent" ps).
Proof.
  intros m p st ps ps' up outer M NF Np Rs Kd Rp Rp'. eexists _, _. split; [apply show_paragraph; exact Np|]. destruct (para_always measure ps) as (A & B & C).
  pose proof (fun prop => paragraph_shown measure document m M NF p st ps ps' outer prop Rs (kind_is _ _ _ Kd) Rp Rp') as H.
  cbn [element_of html lookup html_attr]. split; [|split]; etransitivity; try apply H.
  - rewrite A. reflexivity.
  - rewrite B. reflexivity.
  - rewrite C. reflexivity.
Qed.

Lemma text_in_paragraph : forall m p st ps ps' l x cs cs' lang base up outer, mapped document m -> names_fine (children_named "Style" m) ->
  named_node "Paragraph" p = true -> refers "style-id" p (children_named "Style" m) st -> attr "kind" st = Some (zs "paragraph") ->
  refers "parashape-id" p (children_named "ParaShape" m) ps -> refers "parashape-id" st (children_named "ParaShape" m) ps' ->
  In l (children_named "LineSeg" p) -> In x (children_named "Text" l) ->
  attr "lang" x = Some (zs lang) -> In (lang, base) (languages document) ->
  refers "charshape-id" x (children_named "CharShape" m) cs -> refers "charshape-id" st (children_named "CharShape" m) cs' ->
  exists y rest z, show style document up p = y :: rest /\ In z (kids_of_node y) /\ named_node "span" z = true /\
    page_text z = first_text (kids_of_node x) /\
    forall prop, cascade rules (element_of z) (element_of y :: outer) prop =
    first_of [declared (zs prop) (lang_declarations measure document lang base cs); declared (zs prop) (lang_declarations measure document lang base cs');
              declared (zs prop) (char_declarations cs); declared (zs prop) (char_declarations cs');
              declared (zs prop) (line_declarations measure ps); declared (zs prop) (line_declarations measure ps')].
Proof.
  intros m p st ps ps' l x cs cs' lang base up outer M NF Np Rs Kd Rp Rp' Il Ix L Lb Rc Rc'.
  assert (Nl : named_node "LineSeg" l = true) by (rewrite children_filter in Il; apply filter_In in Il as [_ Il]; exact Il).
  assert (Nx : named_node "Text" x = true) by (rewrite children_filter in Ix; apply filter_In in Ix as [_ Ix]; exact Ix).
  assert (Kx : In x (kids_of_node l)) by (rewrite children_filter in Ix; apply filter_In in Ix as [Ix _]; exact Ix).
  eexists _, _, _. split; [apply show_paragraph; exact Np|]. split; [|split; [|split]].
  - cbn [kids_of_node html]. apply (in_lines style document up p in_line l x); [exact Il|exact Kx|unfold in_line; rewrite Nx; reflexivity|].
    rewrite show_text by assumption. left. reflexivity.
  - reflexivity.
  - cbn [page_text html]. rewrite page_characters. change (name_is "p" (zs "span")) with false. cbv iota. apply app_nil_r.
  - intros prop. apply (text_shown measure document m M NF p x st ps ps' cs cs' lang base outer prop); try assumption. apply kind_is. exact Kd.
Qed.

Lemma lang_entry : forall j lang, nth_error languages_in_order j = Some lang -> exists base, nth_error (languages document) j = Some (lang, base).
Proof.
  intros j lang J. do 7 (destruct j as [|j]; [injection J as <-; eexists; reflexivity|]). destruct j; discriminate.
Qed.

Lemma own_text : forall m p st ps ps' l x cs cs' lang j up outer groups g i f face, mapped document m -> names_fine (children_named "Style" m) ->
  named_node "Paragraph" p = true -> refers "style-id" p (children_named "Style" m) st -> attr "kind" st = Some (zs "paragraph") ->
  refers "parashape-id" p (children_named "ParaShape" m) ps -> refers "parashape-id" st (children_named "ParaShape" m) ps' ->
  In l (children_named "LineSeg" p) -> In x (children_named "Text" l) ->
  attr "lang" x = Some (zs lang) -> nth_error languages_in_order j = Some lang ->
  refers "charshape-id" x (children_named "CharShape" m) cs -> refers "charshape-id" st (children_named "CharShape" m) cs' ->
  fonts_by_language m groups -> nth_error groups j = Some g ->
  children_named "FontFace" cs = [face] -> attr lang face = Some (fmt_d (Z.of_nat i)) -> nth_error g i = Some f ->
  exists y rest z, show style document up p = y :: rest /\ In z (kids_of_node y) /\ page_text z = first_text (kids_of_node x) /\
    cascade rules (element_of z) (element_of y :: outer) "color" = Some (value_of "text-color" cs) /\
    cascade rules (element_of z) (element_of y :: outer) "font-size" = Some (measure ("font-size-" ++ lang) cs) /\
    cascade rules (element_of z) (element_of y :: outer) "font-family" = Some ([34] ++ value_of "name" f ++ [34] ++ generic_family f).
Proof.
  intros m p st ps ps' l x cs cs' lang j up outer groups g i f face M NF Np Rs Kd Rp Rp' Il Ix L J Rc Rc' G Jg Fc A I.
  destruct (lang_entry j lang J) as [base Lb].
  assert (Nl : named_node "LineSeg" l = true) by (rewrite children_filter in Il; apply filter_In in Il as [_ Il]; exact Il).
  assert (Nx : named_node "Text" x = true) by (rewrite children_filter in Ix; apply filter_In in Ix as [_ Ix]; exact Ix).
  assert (Kx : In x (kids_of_node l)) by (rewrite children_filter in Ix; apply filter_In in Ix as [Ix _]; exact Ix).
  pose proof (fun prop => text_shown measure document m M NF p x st ps ps' cs cs' lang base outer prop Rs (kind_is _ _ _ Kd) Rp Rp' L (nth_error_In _ _ Lb) Rc Rc') as H.
  eexists _, _, _. split; [apply show_paragraph; exact Np|]. split; [|split; [|split; [|split]]].
  - cbn [kids_of_node html]. apply (in_lines style document up p in_line l x); [exact Il|exact Kx|unfold in_line; rewrite Nx; reflexivity|].
    rewrite show_text by assumption. left. reflexivity.
  - cbn [page_text html]. rewrite page_characters. change (name_is "p" (zs "span")) with false. cbv iota. apply app_nil_r.
  - etransitivity; [apply H|]. change (declared (zs "color") (lang_declarations measure document lang base cs)) with (@None (list Z)).
    change (declared (zs "color") (lang_declarations measure document lang base cs')) with (@None (list Z)). rewrite char_always. reflexivity.
  - etransitivity; [apply H|]. reflexivity.
  - etransitivity; [apply H|]. unfold lang_declarations at 1. rewrite (face_is document m M groups G lang base cs j g i f face) by assumption.
    cbn [flat_map]. rewrite !app_nil_r. unfold quoted_name. cbn. rewrite <- app_assoc. reflexivity.
Qed.

Lemma bold_text : forall m p st ps ps' l x cs cs' lang base up outer, mapped document m -> names_fine (children_named "Style" m) ->
  named_node "Paragraph" p = true -> refers "style-id" p (children_named "Style" m) st -> attr "kind" st = Some (zs "paragraph") ->
  refers "parashape-id" p (children_named "ParaShape" m) ps -> refers "parashape-id" st (children_named "ParaShape" m) ps' ->
  In l (children_named "LineSeg" p) -> In x (children_named "Text" l) ->
  attr "lang" x = Some (zs lang) -> In (lang, base) (languages document) ->
  refers "charshape-id" x (children_named "CharShape" m) cs -> refers "charshape-id" st (children_named "CharShape" m) cs' ->
  attr "bold" cs' = Some (zs "1") ->
  exists y rest z, show style document up p = y :: rest /\ In z (kids_of_node y) /\ page_text z = first_text (kids_of_node x) /\
    cascade rules (element_of z) (element_of y :: outer) "font-weight" = Some (zs "bold").
Proof.
  intros m p st ps ps' l x cs cs' lang base up outer M NF Np Rs Kd Rp Rp' Il Ix L Lb Rc Rc' B.
  destruct (text_in_paragraph m p st ps ps' l x cs cs' lang base up outer M NF Np Rs Kd Rp Rp' Il Ix L Lb Rc Rc') as (y & rest & z & E & Iz & _ & T & C).
  exists y, rest, z. split; [exact E|]. split; [exact Iz|]. split; [exact T|]. rewrite C. rewrite !char_bold.
  assert (Q : compares (Z.eqb 1) "bold" cs' = true) by (unfold compares, number_of; rewrite B; reflexivity).
  rewrite Q. change (declared (zs "font-weight") (lang_declarations measure document lang base cs)) with (@None (list Z)).
  change (declared (zs "font-weight") (lang_declarations measure document lang base cs')) with (@None (list Z)). cbn [first_of].
  destruct (compares (Z.eqb 1) "bold" cs); reflexivity.
Qed.

Lemma compares_one : forall s x v, attr s x = Some v -> compares (Z.eqb 1) s x = match number v with Some n => 1 =? n | None => false end.
Proof. intros s x v A. unfold compares, number_of. rewrite A. reflexivity. Qed.
Lemma char_italic : forall x, declared (zs "font-style") (char_declarations x) = if compares (Z.eqb 1) "italic" x then Some (zs "italic") else None.
Proof.
  intros x. unfold char_declarations, when, decoration.
  destruct (compares (Z.eqb 1) "italic" x), (compares (Z.eqb 1) "bold" x), (attr_is "underline" "underline" x), (attr_is "underline" "overline" x), (attr_is "underline" "line_through" x); reflexivity.
Qed.
Lemma char_line : forall x v w, In (v, w) text_lines -> attr "underline" x = Some (zs v) ->
  declared (zs "text-decoration") (char_declarations x) = Some (zs w) /\
  declared (zs "text-decoration-color") (char_declarations x) = Some (value_of "underline-color" x) /\
  declared (zs "text-decoration-style") (char_declarations x) = Some (line_style x).
Proof.
  intros x v w I A. unfold char_declarations, when, decoration, attr_is. rewrite A.
  repeat (destruct I as [E|I]; [injection E as <- <-; destruct (compares (Z.eqb 1) "italic" x), (compares (Z.eqb 1) "bold" x); repeat split|]). destruct I.
Qed.
Lemma line_style_is : forall x v w, In (v, w) text_line_styles -> attr "underline-style" x = Some (zs v) -> line_style x = zs w.
Proof. intros x v w I A. unfold line_style, attr_is. rewrite A. repeat (destruct I as [E|I]; [injection E as <- <-; reflexivity|]). destruct I. Qed.
Lemma border_value_is : forall b v w u k c, In (v, w) border_widths -> attr "width" b = Some (zs v) -> In (u, k) border_lines -> attr "stroke-type" b = Some (zs u) ->
  attr "color" b = Some c -> border_value b = zs w ++ zs " " ++ zs k ++ zs " " ++ c.
Proof.
  intros b v w u k c Iw Aw Iu Au Ac. unfold border_value.
  assert (W : border_width b = zs w).
  { unfold border_width, value_of, attr_is. rewrite Aw. repeat (destruct Iw as [E|Iw]; [injection E as <- <-; reflexivity|]). destruct Iw. }
  assert (U : border_style b = zs k).
  { unfold border_style, attr_is. rewrite Au. repeat (destruct Iu as [E|Iu]; [injection E as <- <-; reflexivity|]). destruct Iu. }
  rewrite W, U. unfold value_of. rewrite Ac. reflexivity.
Qed.
Lemma only_first : forall {A} (c c' : option A) (b b' : bool) (v : A), c = (if b then Some v else None) -> c' = (if b' then Some v else None) ->
  first_of [None; None; c; c'; None; None] = if b || b' then Some v else None.
Proof. intros A c c' b b' v -> ->. destruct b, b'; reflexivity. Qed.

Lemma marked_text : forall m p st ps ps' l x cs cs' lang base up outer, mapped document m -> names_fine (children_named "Style" m) ->
  named_node "Paragraph" p = true -> refers "style-id" p (children_named "Style" m) st -> attr "kind" st = Some (zs "paragraph") ->
  refers "parashape-id" p (children_named "ParaShape" m) ps -> refers "parashape-id" st (children_named "ParaShape" m) ps' ->
  In l (children_named "LineSeg" p) -> In x (children_named "Text" l) ->
  attr "lang" x = Some (zs lang) -> In (lang, base) (languages document) ->
  refers "charshape-id" x (children_named "CharShape" m) cs -> refers "charshape-id" st (children_named "CharShape" m) cs' ->
  exists y rest z, show style document up p = y :: rest /\ In z (kids_of_node y) /\ page_text z = first_text (kids_of_node x) /\
    (forall b b', attr "bold" cs = Some (zs (if b : bool then "1" else "0")) -> attr "bold" cs' = Some (zs (if b' : bool then "1" else "0")) ->
       cascade rules (element_of z) (element_of y :: outer) "font-weight" = if b || b' then Some (zs "bold") else None) /\
    (forall b b', attr "italic" cs = Some (zs (if b : bool then "1" else "0")) -> attr "italic" cs' = Some (zs (if b' : bool then "1" else "0")) ->
       cascade rules (element_of z) (element_of y :: outer) "font-style" = if b || b' then Some (zs "italic") else None) /\
    (forall v w u k, In (v, w) text_lines -> attr "underline" cs = Some (zs v) -> In (u, k) text_line_styles -> attr "underline-style" cs = Some (zs u) ->
       cascade rules (element_of z) (element_of y :: outer) "text-decoration" = Some (zs w) /\
       cascade rules (element_of z) (element_of y :: outer) "text-decoration-style" = Some (zs k) /\
       cascade rules (element_of z) (element_of y :: outer) "text-decoration-color" = Some (value_of "underline-color" cs)).
Proof.
  intros m p st ps ps' l x cs cs' lang base up outer M NF Np Rs Kd Rp Rp' Il Ix L Lb Rc Rc'.
  assert (LN : forall prop c, In prop ["font-weight"; "font-style"; "text-decoration"; "text-decoration-style"; "text-decoration-color"] ->
            declared (zs prop) (lang_declarations measure document lang base c) = None).
  { intros prop c I. repeat (destruct I as [<-|I]; [reflexivity|]). destruct I. }
  assert (PN : forall prop c, In prop ["font-weight"; "font-style"; "text-decoration"; "text-decoration-style"; "text-decoration-color"] ->
            declared (zs prop) (line_declarations measure c) = None).
  { intros prop c I. unfold line_declarations, when. destruct (attr_is "linespacing-type" "ratio" c); [|reflexivity]. repeat (destruct I as [<-|I]; [reflexivity|]). destruct I. }
  destruct (text_in_paragraph m p st ps ps' l x cs cs' lang base up outer M NF Np Rs Kd Rp Rp' Il Ix L Lb Rc Rc') as (y & rest & z & E & Iz & Nz & T & ALL).
  exists y, rest, z. split; [exact E|]. split; [exact Iz|]. split; [exact T|]. split; [|split].
  - intros b b' B B'. rewrite ALL, !LN, !PN by (cbn; tauto). rewrite (only_first _ _ _ _ _ (char_bold cs) (char_bold cs')).
    rewrite (compares_one _ _ _ B), (compares_one _ _ _ B'). destruct b, b'; reflexivity.
  - intros b b' B B'. rewrite ALL, !LN, !PN by (cbn; tauto). rewrite (only_first _ _ _ _ _ (char_italic cs) (char_italic cs')).
    rewrite (compares_one _ _ _ B), (compares_one _ _ _ B'). destruct b, b'; reflexivity.
  - intros v w u k I A Iu Au. destruct (char_line cs v w I A) as (D1 & D2 & D3). rewrite !ALL, !LN by (cbn; tauto). rewrite D1, D2, D3, (line_style_is cs u k Iu Au).
    repeat split.
Qed.

Lemma cell_borders : forall m x b up outer side, mapped document m -> names_fine (children_named "Style" m) ->
  named_node "TableCell" x = true -> refers1 "borderfill-id" x (children_named "BorderFill" m) b -> In side sides ->
  exists y, show style document up x = [y] /\ named_node "td" y = true /\
    cascade rules (element_of y) outer ("border-" ++ side) = Some (flat_map border_value (border side b)).
Proof.
  intros m x b up outer side M NF Nx (k & A & N) I. destruct x as [n a kids|]; [|discriminate]. cbn [named_node] in Nx. apply name_is_spec in Nx. subst n.
  eexists. split.
  - cbn [show]. repeat match goal with |- context [name_is ?s (zs "TableCell")] => first [change (name_is s (zs "TableCell")) with false|change (name_is s (zs "TableCell")) with true] end.
    cbn [andb]. cbv iota. reflexivity.
  - split; [reflexivity|]. rewrite <- (box_borders measure document m M NF "td" [] k b outer side); [|listed|left; reflexivity|exact N|exact I].
    f_equal. unfold html, html_attr. rewrite classes_of. f_equal. unfold value_of at 1. rewrite A.
    rewrite <- (app_nil_r (zs "borderfill-" ++ fmt_d (Z.of_nat (S k)))) at 1. apply (words_spaced []); [|constructor]. apply word_digits; [listed|apply fmt_digits; lia].
Qed.
Lemma table_borders : forall m x t b up outer side, mapped document m -> names_fine (children_named "Style" m) ->
  named_node "TableControl" x = true -> attr "inline" x = Some (zs "0") \/ attr "inline" x = Some (zs "1") ->
  children_named "TableBody" x = [t] -> refers1 "borderfill-id" t (children_named "BorderFill" m) b -> In side sides ->
  exists y, In y (flat_map parts (show style document up x)) /\ named_node "table" y = true /\
    cascade rules (element_of y) outer ("border-" ++ side) = Some (flat_map border_value (border side b)).
Proof.
  intros m x t b up outer side M NF Nx Ai Ct (k & A & N) I. destruct x as [n a kids|]; [|discriminate]. cbn [named_node] in Nx. apply name_is_spec in Nx. subst n.
  assert (W : word (zs "borderfill-" ++ fmt_d (Z.of_nat (S k)))) by (apply word_digits; [listed|apply fmt_digits; lia]).
  assert (Tb : table_body "borderfill-id" (Element (zs "TableControl") a kids) = fmt_d (Z.of_nat (S k))) by (unfold table_body; rewrite Ct; cbn [value_of_first]; unfold value_of; rewrite A; reflexivity).
  destruct Ai as [Ai|Ai].
  - assert (I0 : attr_is "inline" "0" (Element (zs "TableControl") a kids) = true) by (apply kind_is; exact Ai).
    assert (I1 : attr_is "inline" "1" (Element (zs "TableControl") a kids) = false) by (unfold attr_is; rewrite Ai; reflexivity).
    eexists. split.
    + cbn [show]. repeat match goal with |- context [name_is ?s (zs "TableControl")] => first [change (name_is s (zs "TableControl")) with false|change (name_is s (zs "TableControl")) with true] end.
      rewrite I0, I1. cbn [andb]. cbv iota. cbn [flat_map parts html]. left. reflexivity.
    + split; [reflexivity|]. rewrite <- (box_borders measure document m M NF "table" [zs "TableControl"] k b outer side); [|listed|right; reflexivity|exact N|exact I].
      f_equal. unfold html, html_attr. rewrite classes_of. f_equal. rewrite Tb.
      etransitivity; [|apply (words_spaced [zs "borderfill-" ++ fmt_d (Z.of_nat (S k))] (zs "TableControl"))].
      * cbn [spaced flat_map]. rewrite app_nil_r. reflexivity.
      * split; [discriminate|repeat constructor].
      * constructor; [exact W|constructor].
  - assert (I1 : attr_is "inline" "1" (Element (zs "TableControl") a kids) = true) by (apply kind_is; exact Ai).
    eexists. split.
    + cbn [show]. repeat match goal with |- context [name_is ?s (zs "TableControl")] => first [change (name_is s (zs "TableControl")) with false|change (name_is s (zs "TableControl")) with true] end.
      rewrite I1. cbn [andb]. cbv iota. cbn [flat_map parts html]. right. left. reflexivity.
    + split; [reflexivity|]. rewrite <- (box_borders measure document m M NF "table" [] k b outer side); [|listed|left; reflexivity|exact N|exact I].
      f_equal. unfold html, html_attr. rewrite classes_of. f_equal. rewrite Tb. rewrite <- (app_nil_r (zs "borderfill-" ++ fmt_d (Z.of_nat (S k)))) at 1. apply (words_spaced [] _ W). constructor.
Qed.
End Shown.

Lemma picture_file : forall style document m up x info b d, mapped document m -> named_node "ShapePicture" x = true -> children_named "PictureInfo" x = [info] ->
  refers1 "bindata-id" info (children_named "BinData" m) b -> named_node "BinData" b = true -> kids_of_node b = [d] -> named_node "BinDataEmbedding" d = true ->
  attr "inline" d <> Some (zs "true") ->
  show style document up x = [html "img" [html_attr "src" (zs "bindata/" ++ value_of "storage-id" d ++ zs "." ++ value_of "ext" d); html_attr "style" (style (x :: up))] []].
Proof.
  intros style document m up x info b d M Nx Ci R Nb Kb Nd Ni. rewrite (show_picture style document m up x info b d) by assumption.
  assert (Q : attr_is "inline" "true" d = false).
  { unfold attr_is. destruct (attr "inline" d) as [t|]; [|reflexivity]. destruct (name_is "true" t) eqn:E; [|reflexivity]. apply name_is_spec in E. congruence. }
  rewrite Q. reflexivity.
Qed.
