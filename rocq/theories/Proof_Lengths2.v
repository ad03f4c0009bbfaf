(** The boxes of the pages of hwp5html: what is applied to sections, to the area
    inside their margins, and to the part with the text. *)
From Coq Require Import ZArith String List Bool Lia.
From Verif Require Import Base Model_Text Model_XmlText Model_Plaintext Model_Html Spec_Html Proof_Html Proof_Html2 Proof_Html3.
Import ListNotations.
Open Scope string_scope.
Open Scope list_scope.
Open Scope Z_scope.

(** ** Rules that say something *)
Definition counts (e : element) (outer : list element) (p : list Z) (r : rule) : bool :=
  hits e outer r && match declared p (r_declarations r) with Some _ => true | None => false end.
Lemma chosen_counts : forall e outer p rules best, chosen e outer p best rules = chosen e outer p best (filter (counts e outer p) rules).
Proof.
  induction rules as [|r rules IH]; intros best; [reflexivity|]. cbn [chosen filter]. unfold counts at 1, hits.
  destruct (matches (r_selector r) e outer) eqn:E; cbn [andb]; [|apply IH].
  destruct (declared p (r_declarations r)) eqn:D; [|apply IH]. cbn [chosen]. rewrite E, D. apply IH.
Qed.
Lemma one_counts : forall e outer p rules r v, filter (counts e outer (zs p)) rules = [r] -> declared (zs p) (r_declarations r) = Some v ->
  cascade rules e outer p = Some v.
Proof.
  intros e outer p rules r v F D. unfold cascade. rewrite chosen_counts, F.
  assert (I : In r (filter (counts e outer (zs p)) rules)) by (rewrite F; left; reflexivity). apply filter_In in I as [_ I]. unfold counts, hits in I.
  apply andb_true_iff in I as [I _]. cbn [chosen]. rewrite I, D. reflexivity.
Qed.

(** ** Properties of boxes *)
Definition box_properties : list string := ["width"; "margin-top"; "margin-right"; "margin-bottom"; "margin-left"; "padding-top"; "padding-bottom"].
Definition silent (l : list declaration) : Prop := forall p, In p box_properties -> declared (zs p) l = None.

Ltac each_box := let q := fresh in let J := fresh in intros q J; repeat (destruct J as [<-|J]; [reflexivity|]); contradiction.
Lemma silent_nil : silent [].
Proof. intros p I. reflexivity. Qed.
Lemma silent_app : forall a b, silent a -> silent b -> silent (a ++ b).
Proof. intros a b A B p I. rewrite declared_app, (B p I). exact (A p I). Qed.
Lemma silent_when : forall c l, silent l -> silent (when c l).
Proof. intros [|] l H; [exact H|exact silent_nil]. Qed.
Lemma silent_flat : forall (f : xnode -> list declaration) l, (forall x, silent (f x)) -> silent (flat_map f l).
Proof. intros f l H. induction l as [|x l IH]; [exact silent_nil|]. cbn. apply silent_app; [apply H|exact IH]. Qed.
Lemma silent_counts : forall e outer p s l, In p box_properties -> silent l -> counts e outer (zs p) (mkRule s l) = false.
Proof. intros e outer p s l I H. unfold counts. cbn [r_declarations]. rewrite (H p I). apply andb_false_r. Qed.

Section Boxes.
Variable measure : string -> xnode -> list Z.
Variable style : list xnode -> list Z.
Variable document : list xnode.

Lemma silent_para : forall x, silent (para_declarations measure x).
Proof. intros x. unfold para_declarations. apply silent_app; [each_box|]. apply silent_app; apply silent_when; each_box. Qed.
Lemma silent_line : forall x, silent (line_declarations measure x).
Proof. intros x. unfold line_declarations. apply silent_when. each_box. Qed.
Lemma silent_char : forall x, silent (char_declarations x).
Proof.
  intros x. unfold char_declarations, decoration. apply silent_app; [each_box|]. apply silent_app; [apply silent_when; each_box|]. apply silent_app; [apply silent_when; each_box|].
  destruct (attr_is "underline" "underline" x); [each_box|]. destruct (attr_is "underline" "overline" x); [each_box|]. destruct (attr_is "underline" "line_through" x); each_box.
Qed.
Lemma silent_lang : forall lang base x, silent (lang_declarations measure document lang base x).
Proof. intros lang base x. unfold lang_declarations. each_box. Qed.

Variable (e : element) (outer : list element) (p : string).
Hypothesis Box : In p box_properties.
Hypothesis NotBody : fst e = zs "div".

Lemma silent_rules_char : forall s x, filter (counts e outer (zs p)) (char_rules measure document s x) = [].
Proof.
  intros s x. apply filter_none. intros r [<-|I]; [apply silent_counts; [exact Box|apply silent_char]|]. apply in_map_iff in I as (l & <- & _).
  apply silent_counts; [exact Box|apply silent_lang].
Qed.
Lemma silent_sheet : filter (counts e outer (zs p)) (styles_css measure document) = [].
Proof.
  unfold styles_css. rewrite filter_app.
  assert (H1 : filter (counts e outer (zs p)) (firstn 4 (styles_css measure document)) = []).
  { cbn [styles_css firstn app]. apply filter_none. intros r I.
    destruct I as [<-|[<-|[<-|[<-|[]]]]].
    - unfold counts, hits, matches. cbn [r_selector fits tag c_tag]. unfold fits. cbn [tag c_tag]. rewrite NotBody. reflexivity.
    - apply silent_counts; [exact Box|each_box].
    - unfold counts, hits, matches, r_selector, fits, with_pseudo, c_pseudo. rewrite andb_false_r. reflexivity.
    - unfold counts, hits, matches, r_selector, fits, with_pseudo, c_pseudo. rewrite andb_false_r. reflexivity. }
  cbn [styles_css firstn app] in H1. rewrite H1. cbn [app]. apply filter_flat_map_none. intros m _. unfold mapping_rules. rewrite !filter_app.
  rewrite filter_flat_map_none, !filter_numbered_none; [reflexivity| | | | |].
  - intros j y. apply filter_none. intros r [<-|[]]. unfold counts, hits, matches, r_selector, fits, with_pseudo, c_pseudo. rewrite andb_false_r. reflexivity.
  - intros j y. apply filter_none. intros r [<-|[]]. apply silent_counts; [exact Box|]. apply silent_app; [each_box|]. unfold fill_declarations.
    repeat apply silent_app; apply silent_flat; intros f; try each_box.
    + apply (silent_app [_]); [each_box|]. apply silent_when. each_box.
    + apply silent_when. each_box.
  - intros j y. apply silent_rules_char.
  - intros j y. apply filter_none. intros r [<-|[<-|[]]]; apply silent_counts; try exact Box; [apply silent_para|apply silent_line].
  - intros x _. unfold style_rules. rewrite filter_app. rewrite (filter_flat_map_none _ (char_rules _ _ _)); [|intros c _; apply silent_rules_char]. rewrite app_nil_r.
    destruct (attr_is "kind" "paragraph" x); [|reflexivity]. apply filter_none.
    intros r [<-|[<-|[]]]; apply silent_counts; try exact Box; apply silent_flat; intros y; [apply silent_para|apply silent_line].
Qed.

Lemma box_rules : ~ In (zs "HeaderArea") (snd e) -> ~ In (zs "FooterArea") (snd e) ->
  filter (counts e outer (zs p)) (styles_css measure document ++ page_rules measure document) =
  filter (counts e outer (zs p)) (flat_map (section_rules measure) (flat_map (children_named "SectionDef") (flat_map (children_named "BodyText") (filter (named_node "HwpDoc") document)))).
Proof.
  intros NH NF. rewrite filter_app, silent_sheet. cbn [app]. unfold page_rules. rewrite !filter_app.
  rewrite (filter_flat_map_none _ (fun p0 => area_rules measure "HeaderArea" "top" (self p0))), (filter_flat_map_none _ (fun p0 => area_rules measure "FooterArea" "bottom" (self p0))).
  - rewrite !app_nil_r. reflexivity.
  - intros x _. apply filter_none. intros r [<-|[]]. unfold counts, hits, matches, r_selector. rewrite (unmatched e []) by exact NF. reflexivity.
  - intros x _. apply filter_none. intros r [<-|[]]. unfold counts, hits, matches, r_selector. rewrite (unmatched e []) by exact NH. reflexivity.
Qed.
End Boxes.

(** ** The boxes of a section *)
Section Section_box.
Variable measure : string -> xnode -> list Z.
Variable style : list xnode -> list Z.
Variable document : list xnode.
Notation sections := (flat_map (children_named "SectionDef") (flat_map (children_named "BodyText") (filter (named_node "HwpDoc") document))).
Variables (s pd : xnode) (k : nat).
Hypothesis I : In s sections.
Hypothesis D : NoDup (map (value_of "section-id") sections).
Hypothesis A : attr "section-id" s = Some (fmt_d (Z.of_nat k)).
Hypothesis P : children_named "PageDef" s = [pd].

Notation own := (zs "Section-" ++ fmt_d (Z.of_nat k)).
Definition section_element : element := (zs "div", [zs "Section"; own; zs "Paper"]).
Definition area_element : element := (zs "div", [zs "HeaderPageFooter"]).
Definition text_element : element := (zs "div", [zs "Page"]).

Lemma own_ident : identifier own = true.
Proof. cbn. apply name_digits. apply fmt_digits. lia. Qed.
Lemma section_word : words [] (zs "Section Section-" ++ value_of "section-id" s ++ zs " Paper") = [zs "Section"; own; zs "Paper"].
Proof.
  unfold value_of. rewrite A.
  replace (zs "Section Section-" ++ fmt_d (Z.of_nat k) ++ zs " Paper") with (zs "Section" ++ [32] ++ own ++ [32] ++ zs "Paper") by (rewrite <- !app_assoc; reflexivity).
  rewrite words_next; [|discriminate|repeat constructor]. rewrite words_next; [|apply identifier_word, own_ident..]. rewrite words_end; [reflexivity|discriminate|repeat constructor].
Qed.
Lemma own_fits : forall id, fits (class (zs "Section-" ++ id)) section_element = if list_eq_dec Z.eq_dec id (fmt_d (Z.of_nat k)) then true else false.
Proof.
  intros id. rewrite fits_class. destruct (list_eq_dec Z.eq_dec id (fmt_d (Z.of_nat k))) as [->|N].
  - rewrite own_ident, among; [reflexivity|]. right. left. reflexivity.
  - rewrite not_among; [apply andb_false_r|]. intros d [<-|[<-|[<-|[]]]]; [discriminate| |discriminate]. intros E. apply app_inv_head in E. congruence.
Qed.
Lemma other_section : forall e outer p y, In p box_properties -> value_of "section-id" y <> fmt_d (Z.of_nat k) ->
  (e = section_element \/ exists rest, outer = rest ++ [section_element; (zs "body", [])] /\ (e = area_element \/ e = text_element) /\ incl rest [area_element]) ->
  filter (counts e outer (zs p)) (section_rules measure y) = [].
Proof.
  intros e outer p y Bx N E. apply filter_none. intros r R. unfold counts. replace (hits e outer r) with false; [reflexivity|]. symmetry.
  assert (F1 : fits (class (zs "Section-" ++ value_of "section-id" y)) section_element = false).
  { rewrite own_fits. destruct (list_eq_dec Z.eq_dec _ _); congruence. }
  assert (F2 : forall e', In e' [area_element; text_element; (zs "body", [])] -> fits (class (zs "Section-" ++ value_of "section-id" y)) e' = false).
  { intros e' J. apply (unmatched e' []). destruct J as [<-|[<-|[<-|[]]]]; cbn [snd area_element text_element]; [intros [L|[]]; discriminate|intros [L|[]]; discriminate|intros []]. }
  destruct E as [->|(rest & -> & E & Rest)].
  - destruct R as [<-|[<-|[<-|[]]]]; unfold hits, matches, r_selector; [exact F1| |]; (rewrite (unmatched section_element []); [reflexivity|]);
      intros [L|[L|[L|[]]]]; try discriminate.
  - assert (F3 : existsb (fits (class (zs "Section-" ++ value_of "section-id" y))) (rest ++ [section_element; (zs "body", [])]) = false).
    { rewrite existsb_app. cbn [existsb]. rewrite F1, (F2 (zs "body", [])) by listed. rewrite !orb_false_r. destruct (existsb _ rest) eqn:X; [|reflexivity].
      apply existsb_exists in X as (o & O & F). destruct (Rest o O) as [<-|[]]. rewrite F2 in F by listed. discriminate. }
    destruct R as [<-|[<-|[<-|[]]]]; unfold hits, matches, r_selector.
    + apply F2. destruct E as [->| ->]; listed.
    + rewrite F3. apply andb_false_r.
    + rewrite F3. apply andb_false_r.
Qed.
Lemma own_section : forall e outer p, In p box_properties -> fst e = zs "div" -> ~ In (zs "HeaderArea") (snd e) -> ~ In (zs "FooterArea") (snd e) ->
  (e = section_element \/ exists rest, outer = rest ++ [section_element; (zs "body", [])] /\ (e = area_element \/ e = text_element) /\ incl rest [area_element]) ->
  filter (counts e outer (zs p)) (styles_css measure document ++ page_rules measure document) = filter (counts e outer (zs p)) (section_rules measure s).
Proof.
  intros e outer p Bx N NH NF E. rewrite (box_rules measure document e outer p Bx N NH NF). destruct (In_nth_error _ _ I) as (j & J).
  apply (filter_one _ _ (value_of "section-id") _ j); [exact J|exact D|]. intros y Iy Ny. apply other_section; [exact Bx| |exact E]. unfold value_of in Ny at 2. rewrite A in Ny. exact Ny.
Qed.
Lemma page_declares : forall o, attr "orientation" pd = Some (zs o) -> In o ["portrait"; "landscape"] ->
  cascade (styles_css measure document ++ page_rules measure document) section_element [(zs "body", [])] "width" =
  Some (measure (if String.eqb o "portrait" then "width" else "height") pd).
Proof.
  intros o O J. eapply one_counts.
  - rewrite own_section; [|listed|reflexivity|intros [L|[L|[L|[]]]]; discriminate|intros [L|[L|[L|[]]]]; discriminate|left; reflexivity].
    unfold section_rules. rewrite P. unfold value_of. rewrite A. cbn [filter]. unfold counts at 1, hits, matches, r_selector. rewrite own_fits.
    destruct (list_eq_dec Z.eq_dec _ _) as [_|N]; [|congruence]. cbn [andb r_declarations flat_map app]. unfold attr_is. rewrite O.
    assert (X : forall n d, In n ["HeaderPageFooter"; "Page"] -> counts section_element [(zs "body", [])] (zs "width") (mkRule (Inside (class own) (class (zs n))) d) = false).
    { intros n d Jn. unfold counts, hits, matches, r_selector. rewrite (unmatched section_element []); [reflexivity|].
      destruct Jn as [<-|[<-|[]]]; intros [L|[L|[L|[]]]]; discriminate. }
    rewrite !X by listed. destruct J as [<-|[<-|[]]]; reflexivity.
  - destruct J as [<-|[<-|[]]]; reflexivity.
Qed.
Lemma area_declares : forall side, In side ["top"; "right"; "bottom"; "left"] ->
  cascade (styles_css measure document ++ page_rules measure document) area_element [section_element; (zs "body", [])] ("margin-" ++ side) = Some (measure (side ++ "-offset")%string pd).
Proof.
  intros side J. assert (Bx : In ("margin-" ++ side)%string box_properties) by (repeat (destruct J as [<-|J]; [listed|]); contradiction). eapply one_counts.
  - rewrite own_section; [|exact Bx|reflexivity|intros [L|[]]; discriminate|intros [L|[]]; discriminate|right; exists []; split; [reflexivity|]; split; [left; reflexivity|intros x []]].
    unfold section_rules. rewrite P. unfold value_of. rewrite A. cbn [filter].
    assert (X1 : forall d, counts area_element [section_element; (zs "body", [])] (zs ("margin-" ++ side)) (mkRule (Plain (class own)) d) = false).
    { intros d. unfold counts, hits, matches, r_selector. rewrite (unmatched area_element []); [reflexivity|]. intros [L|[]]. discriminate. }
    assert (X3 : forall d, counts area_element [section_element; (zs "body", [])] (zs ("margin-" ++ side)) (mkRule (Inside (class own) (class (zs "Page"))) d) = false).
    { intros d. unfold counts, hits, matches, r_selector. rewrite (unmatched area_element []); [reflexivity|]. intros [L|[]]. discriminate. }
    assert (X2 : hits area_element [section_element; (zs "body", [])] (mkRule (Inside (class own) (class (zs "HeaderPageFooter"))) []) = true).
    { unfold hits, matches, r_selector. cbn [existsb]. rewrite own_fits. destruct (list_eq_dec Z.eq_dec _ _) as [_|N]; [reflexivity|congruence]. }
    rewrite X1, X3. unfold counts at 1. unfold hits in X2 |- *. cbn [r_selector] in X2 |- *. rewrite X2. cbn [andb r_declarations flat_map app].
    match goal with |- context [declared ?q ?l] => assert (Y : exists v, declared q l = Some v) end.
    { repeat (destruct J as [<-|J]; [eexists; reflexivity|]). contradiction. }
    destruct Y as (v & Y). rewrite Y. reflexivity.
  - repeat (destruct J as [<-|J]; [reflexivity|]). contradiction.
Qed.
Lemma text_declares : forall side w, In (side, w) [("top", "header"); ("bottom", "footer")] ->
  cascade (styles_css measure document ++ page_rules measure document) text_element [area_element; section_element; (zs "body", [])] ("padding-" ++ side) =
  Some (measure (w ++ "-offset")%string pd).
Proof.
  intros side w J. assert (Bx : In ("padding-" ++ side)%string box_properties) by (repeat (destruct J as [J|J]; [injection J as <- <-; listed|]); contradiction). eapply one_counts.
  - rewrite own_section; [|exact Bx|reflexivity|intros [L|[]]; discriminate|intros [L|[]]; discriminate|right; exists [area_element]; split; [reflexivity|]; split; [right; reflexivity|apply incl_refl]].
    unfold section_rules. rewrite P. unfold value_of. rewrite A. cbn [filter].
    assert (X1 : forall d, counts text_element [area_element; section_element; (zs "body", [])] (zs ("padding-" ++ side)) (mkRule (Plain (class own)) d) = false).
    { intros d. unfold counts, hits, matches, r_selector. rewrite (unmatched text_element []); [reflexivity|]. intros [L|[]]. discriminate. }
    assert (X3 : forall d, counts text_element [area_element; section_element; (zs "body", [])] (zs ("padding-" ++ side)) (mkRule (Inside (class own) (class (zs "HeaderPageFooter"))) d) = false).
    { intros d. unfold counts, hits, matches, r_selector. rewrite (unmatched text_element []); [reflexivity|]. intros [L|[]]. discriminate. }
    assert (X2 : hits text_element [area_element; section_element; (zs "body", [])] (mkRule (Inside (class own) (class (zs "Page"))) []) = true).
    { unfold hits, matches, r_selector. cbn [existsb]. rewrite own_fits. destruct (list_eq_dec Z.eq_dec _ _) as [_|N]; [|congruence]. rewrite orb_true_l, orb_true_r. reflexivity. }
    rewrite X1, X3. unfold counts at 1. unfold hits in X2 |- *. cbn [r_selector] in X2 |- *. rewrite X2. cbn [andb r_declarations flat_map app].
    match goal with |- context [declared ?q ?l] => assert (Y : exists v, declared q l = Some v) end.
    { repeat (destruct J as [J|J]; [injection J as <- <-; eexists; reflexivity|]). contradiction. }
    destruct Y as (v & Y). rewrite Y. reflexivity.
  - repeat (destruct J as [J|J]; [injection J as <- <-; reflexivity|]). contradiction.
Qed.
End Section_box.
