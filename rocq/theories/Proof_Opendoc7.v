(** Places of drawings, margins, notes and fonts. *)
From Coq Require Import ZArith String List Bool Lia.
From Verif Require Import Base Model_Text Model_XmlText Model_Plaintext Model_Html Spec_Text Spec_Html Proof_Html Proof_Html3 Model_Opendoc Spec_Opendoc Proof_Opendoc Proof_Opendoc2 Proof_Opendoc3 Proof_Opendoc4 Proof_Opendoc5 Proof_Opendoc6.
Import ListNotations.
Open Scope string_scope.
Open Scope list_scope.
Open Scope Z_scope.

Lemma nodup_inj : forall {A B} (f : A -> B) l x y, NoDup (map f l) -> In x l -> In y l -> f x = f y -> x = y.
Proof.
  intros A B f l x y. induction l as [|a l IH]; intros N Ix Iy E; [contradiction|]. cbn [map] in N. inversion N as [|? ? F N']. subst. destruct Ix as [->|Ix], Iy as [->|Iy].
  - reflexivity.
  - exfalso. apply F. rewrite E. apply in_map. exact Iy.
  - exfalso. apply F. rewrite <- E. apply in_map. exact Ix.
  - exact (IH N' Ix Iy E).
Qed.

Section Places.
  Variable measure : string -> xnode -> list Z.
  Variable geometry : list xnode -> list attribute.
  Variable document : list xnode.
  Variables m d b : xnode.
  Hypothesis T : one_text document m d b.
  Notation styles := (file_styles (content_xml measure geometry document) (styles_xml measure document)).

  Lemma placed_says : forall x o rest y prop, In x (in_text "ShapeComponent" b) -> In (x :: o :: rest) (all_nodes document) -> named_node "GShapeObjectControl" o = true ->
    value_of "draw:style-name" y = shape_name x -> drawing_property styles y prop = lookup (zs prop) (placement measure o ++ fill x ++ outline measure x).
  Proof.
    intros x o rest y prop I P N E. destruct (text_path d b _ _ I) as (path & J & S1).
    assert (path = x :: o :: rest).
    { apply (nodup_inj (fun p => attr "shape-id" (self p)) (everywhere document "ShapeComponent")).
      - exact (nodup_paths document "shape-id" "ShapeComponent" (an_shapes _ (ot_numbered _ _ _ _ T))).
      - exact (part_in _ _ _ (in_sections_part document m d b T "ShapeComponent") J).
      - apply filter_In. split; [exact P|]. exact (text_named b _ _ I).
      - rewrite S1. reflexivity. }
    subst path. unfold drawing_property. rewrite E, (styles_are measure geometry document m d b T).
    assert (K : In (style_of_shape measure (x :: o :: rest)) (all_styles measure document d b)) by (unfold all_styles, automatic_styles; apply in_or_app; left; do 3 (apply in_or_app; right); apply in_map; exact J).
    rewrite (effective_step _ _ _ _ _ _ _ (style_alone measure document m d b T "graphic" (shape_name x) _ K eq_refl)).
    unfold style_of_shape. rewrite N. erewrite itself_one by reflexivity. cbn [self]. destruct (lookup _ _); reflexivity.
  Qed.
End Places.

Section Placement.
  Variable measure : string -> xnode -> list Z.
  Lemma place_margin : forall o side l, In side sides -> lookup (zs ("fo:margin-" ++ side)) (placement measure o ++ l) = Some (measure ("shape-margin-" ++ side)%string o).
  Proof. intros o side l I. unfold placement. repeat (destruct I as [<-|I]; [reflexivity|]). contradiction. Qed.
  Ltac by_cases := try reflexivity; repeat match goal with |- context [if ?c then ?u else _] => match type of u with list _ => destruct c end end; reflexivity.
  Lemma place_of : forall o a v prop w l, attr "inline" o = Some (zs "0") -> In ((a, v), (prop, w)) places -> attr a o = Some (zs v) ->
    lookup (zs prop) (placement measure o ++ l) = Some (zs w).
  Proof.
    intros o a v prop w l L I A. unfold placement. assert (C : compares (Z.eqb 0) "inline" o = true) by (unfold compares, number_of; rewrite L; reflexivity). rewrite C.
    repeat (destruct I as [E|I]; [apply pair_equal_spec in E as [E1 E2]; apply pair_equal_spec in E1 as [<- <-]; apply pair_equal_spec in E2 as [<- <-]; rewrite !(attr_is_other _ _ _ _ A), !lookup_app; by_cases|]).
    contradiction.
  Qed.
  Lemma place_wrap : forall o side w l, attr "inline" o = Some (zs "0") -> attr "flow" o = Some (zs "float") -> In (side, w) wraps -> attr "text-side" o = Some (zs side) ->
    lookup (zs "style:wrap") (placement measure o ++ l) = Some (zs w).
  Proof.
    intros o side w l L F I A. unfold placement. assert (C : compares (Z.eqb 0) "inline" o = true) by (unfold compares, number_of; rewrite L; reflexivity). rewrite C.
    rewrite !(attr_is_other _ _ _ _ F). repeat (destruct I as [E|I]; [apply pair_equal_spec in E as [<- <-]; rewrite !(attr_is_other _ _ _ _ A); reflexivity|]). contradiction.
  Qed.
  Lemma place_center : forall o l, attr "inline" o = Some (zs "0") -> attr "halign" o = Some (zs "center") -> attr "x" o = Some (zs "0") ->
    lookup (zs "style:horizontal-pos") (placement measure o ++ l) = Some (zs "center").
  Proof.
    intros o l L A X. unfold placement. assert (C : compares (Z.eqb 0) "inline" o = true) by (unfold compares, number_of; rewrite L; reflexivity).
    assert (C' : compares (Z.eqb 0) "x" o = true) by (unfold compares, number_of; rewrite X; reflexivity). rewrite C, C'.
    rewrite !(attr_is_other _ _ _ _ A), !lookup_app. by_cases.
  Qed.
  Lemma place_inline : forall o l, attr "inline" o = Some (zs "1") ->
    lookup (zs "style:vertical-rel") (placement measure o ++ l) = Some (zs "baseline") /\ lookup (zs "style:vertical-pos") (placement measure o ++ l) = Some (zs "top").
  Proof. intros o l L. unfold placement. assert (C : compares (Z.eqb 0) "inline" o = false) by (unfold compares, number_of; rewrite L; reflexivity). rewrite C. split; reflexivity. Qed.
  Lemma place_no_stroke : forall o, lookup (zs "draw:stroke") (placement measure o) = None.
  Proof. intros o. unfold placement. rewrite lookup_app. destruct (compares (Z.eqb 0) "inline" o); [|reflexivity]. rewrite !lookup_app. by_cases. Qed.
  Lemma stroke_of : forall x l s w, children_named "BorderLine" x = [l] -> In (s, w) drawing_strokes -> attr "stroke" l = Some (zs s) -> lookup (zs "draw:stroke") (fill x ++ outline measure x) = Some (zs w).
  Proof.
    intros x l s w B I A. rewrite lookup_app. assert (N : lookup (zs "draw:stroke") (fill x) = None) by (unfold fill; destruct (compares _ _ _); reflexivity). rewrite N. unfold outline. rewrite B. cbn [flat_map].
    repeat (destruct I as [E|I]; [apply pair_equal_spec in E as [<- <-]; rewrite !(attr_is_other _ _ _ _ A); reflexivity|]). contradiction.
  Qed.
  Lemma table_margins : forall x, says_itself (style_of_table measure x) "style:table-properties" "fo:margin-top" = Some (measure "table-margin-top" x) /\
    says_itself (style_of_table measure x) "style:table-properties" "fo:margin-bottom" = Some (measure "table-margin-bottom" x) /\
    (attr "width-relto" x = Some (zs "absolute") -> says_itself (style_of_table measure x) "style:table-properties" "fo:margin-left" = Some (measure "table-margin-left" x) /\
       says_itself (style_of_table measure x) "style:table-properties" "fo:margin-right" = Some (measure "table-margin-right" x)).
  Proof.
    intros x. repeat rewrite (itself_one (style_of_table measure x) "style:table-properties" _ _ eq_refl). split; [|split].
    - destruct (attr_is "width-relto" "absolute" x); reflexivity.
    - destruct (attr_is "width-relto" "absolute" x); reflexivity.
    - intros A. rewrite !(attr_is_other _ _ _ _ A). split; reflexivity.
  Qed.
End Placement.

(** Notes. *)
Lemma note_written : forall geometry document up x kind class, In (kind, class) [("FootNote", "footnote"); ("EndNote", "endnote")] -> named_node kind x = true ->
  exists y citation inside, write geometry document up x = [y] /\ named_node "text:note" y = true /\ attr "text:note-class" y = Some (zs class) /\
    kids_of_node y = [citation; inside] /\ named_node "text:note-citation" citation = true /\ opendoc_text citation = value_of "number" x /\ named_node "text:note-body" inside = true /\
    (forallb simple_text (flat_map (children_named "Paragraph") (children_named "ListHeader" x)) = true ->
       flat_map opendoc_text (kids_of_node inside) = flat_map apply_templates (flat_map (children_named "Paragraph") (children_named "ListHeader" x))).
Proof.
  intros geometry document up x kind class I N. destruct (named_elem _ _ N) as (a & kids & ->).
  assert (E : exists c attrs, write geometry document up (Element (zs kind) a kids) = [elem "text:note" (c :: attrs) [elem "text:note-citation" [] (characters (value_of "number" (Element (zs kind) a kids)));
     elem "text:note-body" [] (flat_map (fun l => match l with
                   | Element ln _ lk => if name_is "ListHeader" ln then flat_map (fun k => if named_node "Paragraph" k then write geometry document (l :: Element (zs kind) a kids :: up) k else []) lk else []
                   | Characters _ => []
                   end) kids)]] /\ attr "text:note-class" (elem "text:note" (c :: attrs) []) = Some (zs class)).
  { repeat (destruct I as [E|I]; [apply pair_equal_spec in E as [<- <-]; eexists _, _; split; reflexivity|]). contradiction. }
  destruct E as (c & attrs & E & A). eexists _, _, _. split; [exact E|]. split; [reflexivity|]. split; [exact A|]. split; [reflexivity|]. split; [reflexivity|]. split; [|split; [reflexivity|]].
  - unfold elem. cbn [opendoc_text]. change (name_is "text:p" (zs "text:note-citation")) with false. cbv iota. rewrite opendoc_characters, app_nil_r. reflexivity.
  - cbn [elem kids_of_node]. clear. intros H. rewrite !flat_map_concat_map. rewrite !children_filter. cbn [kids_of_node]. generalize (Element (zs kind) a kids). intros X.
    rewrite <- !flat_map_concat_map. rewrite !children_filter in H. cbn [kids_of_node] in H.
    induction kids as [|l r IH]; [reflexivity|]. cbn [flat_map filter] in *. rewrite flat_map_app.
    destruct l as [ln la lk|]; [|exact (IH H)]. cbn [named_node] in *. destruct (name_is "ListHeader" ln).
    + cbn [flat_map] in *. rewrite forallb_app in H. apply andb_true_iff in H as [H1 H2]. rewrite (IH H2). rewrite flat_map_app. f_equal. clear - H1.
      rewrite children_filter in *. cbn [kids_of_node] in *. generalize (Element ln la lk). intros L. induction lk as [|k q IH]; [reflexivity|]. cbn [flat_map filter] in *. rewrite flat_map_app.
      destruct (named_node "Paragraph" k).
      * cbn [forallb] in H1. apply andb_true_iff in H1 as [H1 H2]. cbn [flat_map]. rewrite (IH H2). f_equal. apply write_simple. exact H1.
      * exact (IH H1).
    + exact (IH H).
Qed.

(** Fonts. *)
Lemma font_declared : forall measure document m d b f, one_text document m d b -> In f (children_named "FaceName" m) -> exists y,
  In y (declared_fonts (value_of "name" f) (styles_xml measure document)) /\ attr "svg:font-family" y = Some (zs "'" ++ value_of "name" f ++ zs "'") /\
  forall p k, children_named "Panose1" f = [p] -> attr "serif-style" p = Some (fmt_d (Z.of_nat k)) -> attr "style:font-family-generic" y = Some (zs (if Nat.ltb k 11 then "roman" else "swiss")).
Proof.
  intros measure document m d b f T I. exists (font_face f). split; [|split; [reflexivity|]].
  - apply filter_In. split.
    + apply in_flat_map. exists (elem "office:font-face-decls" [] (font_faces document)). split.
      * unfold styles_xml. rewrite (ot_document _ _ _ _ T). left. reflexivity.
      * cbn [elem kids_of_node]. unfold font_faces, doc_infos. pose proof (md_path _ _ (ot_mapped _ _ _ _ T)) as P. rewrite (ot_document _ _ _ _ T) in *. cbn [flat_map] in *. rewrite app_nil_r in *.
        destruct (children_named "DocInfo" d) as [|i [|i' r]] eqn:D; [discriminate P| |pose proof (ot_info _ _ _ _ T) as Q; rewrite D in Q; discriminate Q].
        cbn [flat_map] in *. rewrite app_nil_r in *. rewrite P. apply in_or_app. right. cbn [flat_map]. rewrite app_nil_r. apply in_map. exact I.
    + cbn [font_face elem named_node]. change (name_is "style:font-face" (zs "style:font-face")) with true. cbn [andb]. unfold is_attr.
      change (attr "style:name" (font_face f)) with (Some (value_of "name" f)). apply text_eqb_refl.
  - intros p k P S1. unfold font_face. rewrite P. cbn [existsb]. unfold compares, number_of. rewrite S1, number_fmt. rewrite !orb_false_r.
    change (Some (if Z.of_nat k <? 11 then zs "roman" else if 11 <=? Z.of_nat k then zs "swiss" else []) = Some (zs (if (k <? 11)%nat then "roman" else "swiss"))). f_equal.
    destruct (Nat.ltb_spec k 11).
    + replace (Z.of_nat k <? 11) with true by lia. reflexivity.
    + replace (Z.of_nat k <? 11) with false by lia. replace (11 <=? Z.of_nat k) with true by lia. reflexivity.
Qed.
