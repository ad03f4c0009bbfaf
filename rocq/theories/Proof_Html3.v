(** Proofs about the pages of hwp5html, continued: fonts, borders, pictures, and
    the text of a page. *)
From Coq Require Import ZArith String List Bool Lia.
From Verif Require Import Base Model_Text Model_XmlText Model_Plaintext Model_Html Spec_Text Spec_Html Proof_Text Proof_Html Proof_Html2.
Import ListNotations.
Open Scope string_scope.
Open Scope list_scope.
Open Scope Z_scope.

(** ** Fonts *)
Lemma nth_concat : forall {A} (gs : list (list A)) j g i f, nth_error gs j = Some g -> nth_error g i = Some f ->
  nth_error (concat gs) (List.length (concat (firstn j gs)) + i) = Some f.
Proof.
  induction gs as [|h gs IH]; intros [|j] g i f J I; cbn in J; try discriminate.
  - injection J as ->. cbn. rewrite nth_error_app1; [exact I|]. apply nth_error_Some. congruence.
  - cbn [firstn concat]. rewrite app_length. rewrite nth_error_app2 by lia. replace (List.length h + List.length (concat (firstn j gs)) + i - List.length h)%nat with (List.length (concat (firstn j gs)) + i)%nat by lia.
    eapply IH; eassumption.
Qed.

Section Fonts.
Variable document : list xnode.
Variable m : xnode.
Hypothesis M : mapped document m.
Variable groups : list (list xnode).
Hypothesis G : fonts_by_language m groups.

Lemma count_is : forall j l g, nth_error languages_in_order j = Some l -> nth_error groups j = Some g ->
  font_count document (l ++ "-fonts") = Some (Z.of_nat (List.length g)).
Proof.
  intros j l g Jl Jg. destruct G as (_ & _ & F). unfold font_count, id_mappings. rewrite (md_one _ _ M). unfold number_of.
  assert (A : attr (l ++ "-fonts") m = Some (fmt_d (Z.of_nat (List.length g)))).
  { clear M G. revert j Jl Jg. induction F as [|a b la lb Hab F IH]; intros [|j] Jl Jg; cbn in Jl, Jg; try discriminate.
    - injection Jl as <-. injection Jg as <-. exact Hab.
    - eapply IH; eassumption. }
  rewrite A. apply number_fmt.
Qed.
Lemma base_is : forall j l b, nth_error (languages document) j = Some (l, b) -> b = Some (Z.of_nat (S (List.length (concat (firstn j groups))))).
Proof.
  assert (E : exists g1 g2 g3 g4 g5 g6 g7, groups = [g1; g2; g3; g4; g5; g6; g7]).
  { destruct G as (L & _ & _). revert L. generalize groups. intros gs L.
    destruct gs as [|g1 [|g2 [|g3 [|g4 [|g5 [|g6 [|g7 [|? ?]]]]]]]]; try discriminate. exists g1, g2, g3, g4, g5, g6, g7. reflexivity. }
  destruct E as (g1 & g2 & g3 & g4 & g5 & g6 & g7 & E).
  assert (C1 : font_count document ("ko" ++ "-fonts") = Some (Z.of_nat (List.length g1))) by (apply (count_is 0); [|rewrite E]; reflexivity).
  assert (C2 : font_count document ("en" ++ "-fonts") = Some (Z.of_nat (List.length g2))) by (apply (count_is 1); [|rewrite E]; reflexivity).
  assert (C3 : font_count document ("cn" ++ "-fonts") = Some (Z.of_nat (List.length g3))) by (apply (count_is 2); [|rewrite E]; reflexivity).
  assert (C4 : font_count document ("jp" ++ "-fonts") = Some (Z.of_nat (List.length g4))) by (apply (count_is 3); [|rewrite E]; reflexivity).
  assert (C5 : font_count document ("other" ++ "-fonts") = Some (Z.of_nat (List.length g5))) by (apply (count_is 4); [|rewrite E]; reflexivity).
  assert (C6 : font_count document ("symbol" ++ "-fonts") = Some (Z.of_nat (List.length g6))) by (apply (count_is 5); [|rewrite E]; reflexivity).
  rewrite E.
  cbn [append] in C1, C2, C3, C4, C5, C6.
  unfold languages, base_user, base_symbol, base_other, base_jp, base_cn, base_en, base_ko. rewrite C1, C2, C3, C4, C5, C6. cbn [plus].
  intros j l b J. do 7 (destruct j as [|j]; [injection J as _ <-; cbn [firstn concat]; rewrite ?app_length; cbn [List.length]; f_equal; lia|]).
  destruct j; discriminate.
Qed.

Lemma face_is : forall lang base x j g i f face, nth_error (languages document) j = Some (lang, base) -> nth_error groups j = Some g ->
  children_named "FontFace" x = [face] -> attr lang face = Some (fmt_d (Z.of_nat i)) -> nth_error g i = Some f ->
  anywhere "FaceName" (plus base (face_index lang x)) document = [f].
Proof.
  intros lang base x j g i f face J Jg F A I. rewrite (anywhere_is _ m) by (try exact M; listed).
  unfold face_index. rewrite <- children_filter, F. unfold number_of. rewrite A, number_fmt. rewrite (base_is j lang base J). cbn [plus].
  replace (Z.of_nat (S (List.length (concat (firstn j groups)))) + Z.of_nat i) with (Z.of_nat (List.length (concat (firstn j groups)) + i) + 1) by lia.
  apply nth_child_is. destruct G as (_ & E & _). rewrite E. eapply nth_concat; eassumption.
Qed.
End Fonts.

(** ** Cells and tables *)
Section Boxes.
Variable measure : string -> xnode -> list Z.
Variable document : list xnode.
Variable m : xnode.
Hypothesis M : mapped document m.
Hypothesis NF : names_fine (children_named "Style" m).
Notation rules := (styles_css measure document ++ page_rules measure document).

Lemma chosen_app : forall e outer p a b best, (forall r, In r a -> hits e outer r = false) -> chosen e outer p best (a ++ b) = chosen e outer p best b.
Proof.
  intros e outer p a b best H. rewrite chosen_filter, filter_app. rewrite (filter_none _ a H). cbn [app]. symmetry. apply chosen_filter.
Qed.

Lemma box_rules : forall t pre n x outer, In t ["td"; "table"] -> pre = [] \/ pre = [zs "TableControl"] ->
  nth_error (children_named "BorderFill" m) n = Some x ->
  filter (hits (zs t, pre ++ [zs "borderfill-" ++ fmt_d (Z.of_nat (S n))]) outer) rules = borderfill_rules measure document (Z.of_nat (S n)) x.
Proof.
  intros t pre n x outer It P N. set (e := (zs t, pre ++ [zs "borderfill-" ++ fmt_d (Z.of_nat (S n))])).
  assert (Cl : forall c, In c (snd e) -> c = zs "TableControl" \/ c = zs "borderfill-" ++ fmt_d (Z.of_nat (S n))).
  { intros c I. cbn [e snd] in I. apply in_app_or in I as [I|[<-|[]]]; [|right; reflexivity]. destruct P as [->| ->]; [contradiction|]. destruct I as [<-|[]]. left. reflexivity. }
  assert (Nt : forall c s d, In s ["body"; "p"; "span"] -> hits e outer (mkRule (Plain (mkCompound (Some (zs s)) c None)) d) = false).
  { intros c s d Is. unfold hits. cbn [r_selector matches]. unfold fits. cbn [c_tag e fst]. rewrite text_eqb_not; [reflexivity|].
    destruct It as [<-|[<-|[]]]; repeat (destruct Is as [<-|Is]; [discriminate|]); contradiction. }
  assert (Nc : forall a c d, hits e outer (mkRule (Child a (mkCompound (Some (zs "span")) c None)) d) = false).
  { intros a c d. unfold hits. cbn [r_selector matches]. unfold fits at 1. cbn [c_tag e fst]. rewrite text_eqb_not; [reflexivity|].
    destruct It as [<-|[<-|[]]]; discriminate. }
  assert (Nn : forall c, c <> zs "TableControl" -> c <> zs "borderfill-" ++ fmt_d (Z.of_nat (S n)) -> fits (class c) e = false).
  { intros c A B. apply (unmatched e []). intros I. destruct (Cl c I); contradiction. }
  assert (Np : forall a p d, hits e outer (mkRule (Plain (with_pseudo p a)) d) = false).
  { intros a p d. unfold hits, matches, r_selector, fits, with_pseudo, c_pseudo. apply andb_false_r. }
  assert (Nb : forall c, In c ["Paper"; "Page"; "HeaderPageFooter"; "HeaderArea"; "FooterArea"] -> fits (class (zs c)) e = false).
  { intros c I. apply Nn; repeat (destruct I as [<-|I]; [discriminate|]); contradiction. }
  assert (Nk : forall s x, filter (hits e outer) (char_rules measure document (Child s (tag "span")) x) = []).
  { intros s y. apply filter_none. intros r I. destruct I as [<-|I]; [apply Nc|]. apply in_map_iff in I as (l & <- & _). apply Nc. }
  rewrite filter_app. rewrite (sheet measure document m M), filter_app. rewrite (filter_none _ (firstn 4 (styles_css measure document))).
  2: { intros r I. cbn [styles_css firstn app] in I. destruct I as [<-|[<-|[<-|[<-|[]]]]].
       - apply Nt. listed.
       - unfold hits. cbn [r_selector matches]. apply Nb. listed.
       - apply Np.
       - apply Np. }
  assert (PR : filter (hits e outer) (page_rules measure document) = []).
  { unfold page_rules. rewrite !filter_app. rewrite !filter_flat_map_none; [reflexivity| | |].
    - intros y _. apply filter_none. intros r [<-|[]]. unfold hits. cbn [r_selector matches]. apply Nb. listed.
    - intros y _. apply filter_none. intros r [<-|[]]. unfold hits. cbn [r_selector matches]. apply Nb. listed.
    - intros y _. apply filter_none. intros r [<-|[<-|[<-|[]]]]; unfold hits; cbn [r_selector matches].
      + apply Nn; [discriminate|]. apply zs_prefix_neq; [listed|listed|discriminate].
      + rewrite Nb by listed. reflexivity.
      + rewrite Nb by listed. reflexivity. }
  rewrite PR, app_nil_r. cbn [app]. unfold mapping_rules. rewrite !filter_app.
  rewrite filter_flat_map_none.
  2: { intros st I. unfold style_rules. rewrite filter_app. rewrite filter_flat_map_none by (intros; apply Nk). rewrite app_nil_r.
       destruct (attr_is "kind" "paragraph" st); [|reflexivity]. apply filter_none. intros r [<-|[<-|[]]]; [|apply Nc].
       unfold hits. cbn [r_selector matches]. destruct NF as [_ F]. rewrite Forall_forall in F. destruct (F st I) as [_ R]. apply Nn.
       - apply (not_reserved_name _ R "TableControl"). listed.
       - intros E. exact (not_reserved _ R "borderfill-" _ ltac:(listed) E). }
  rewrite (filter_numbered_none (hits e outer) (para_rules measure)).
  2: { intros j y. apply filter_none. intros r [<-|[<-|[]]]; [apply Nt; listed|apply Nc]. }
  rewrite (filter_numbered_none (hits e outer) (span_rules measure document)).
  2: { intros j y. apply filter_none. intros r I. destruct I as [<-|I]; [apply Nt; listed|]. apply in_map_iff in I as (l & <- & _). apply Nt. listed. }
  rewrite (filter_numbered_none (hits e outer) (bullet_rules measure)) by (intros j y; apply filter_none; intros r [<-|[]]; apply Np).
  rewrite app_nil_r. cbn [app].
  rewrite (filter_numbered (hits e outer) (borderfill_rules measure document) _ 1 n x N).
  - replace (1 + Z.of_nat n) with (Z.of_nat (S n)) by lia. unfold borderfill_rules. cbn [filter].
    assert (Q : fits (class (zs "borderfill-" ++ fmt_d (Z.of_nat (S n)))) e = true).
    { rewrite fits_class. rewrite ident_digits; [|listed|apply fmt_digits; lia]. cbn [andb]. apply among. cbn [e snd]. apply in_or_app. right. left. reflexivity. }
    unfold hits. cbn [r_selector matches]. rewrite Q. reflexivity.
  - intros j y J. apply filter_none. intros r [<-|[]]. unfold hits. cbn [r_selector matches]. apply Nn; [discriminate|].
    replace (1 + Z.of_nat j) with (Z.of_nat (S j)) by lia. intros Q. apply app_inv_head, fmt_inj in Q. lia.
Qed.
Lemma box_cascade : forall t pre n x outer prop, In t ["td"; "table"] -> pre = [] \/ pre = [zs "TableControl"] ->
  nth_error (children_named "BorderFill" m) n = Some x ->
  cascade rules (zs t, pre ++ [zs "borderfill-" ++ fmt_d (Z.of_nat (S n))]) outer prop =
  declared (zs prop) (flat_map r_declarations (borderfill_rules measure document (Z.of_nat (S n)) x)).
Proof.
  intros t pre n x outer prop It P N. unfold cascade. rewrite chosen_filter. rewrite (box_rules t pre n x) by assumption. unfold borderfill_rules.
  cbn [chosen r_selector r_declarations flat_map]. rewrite app_nil_r.
  assert (Q : matches (Plain (class (zs "borderfill-" ++ fmt_d (Z.of_nat (S n))))) (zs t, pre ++ [zs "borderfill-" ++ fmt_d (Z.of_nat (S n))]) outer = true).
  { cbn [matches]. rewrite fits_class. rewrite ident_digits; [|listed|apply fmt_digits; lia]. cbn [andb]. apply among. cbn [snd]. apply in_or_app. right. left. reflexivity. }
  rewrite Q. match goal with |- context [declared ?p ?l] => destruct (declared p l) eqn:E end; cbn [option_map snd]; symmetry; exact E || (rewrite E; reflexivity) || reflexivity.
Qed.

Lemma border_is : forall side x, In side sides -> border_of side x = flat_map border_value (border side x).
Proof.
  intros side x _. unfold border_of, border. f_equal. rewrite children_filter.
  assert (Q : forall b, attr_is "attribute-name" side b = match attr "attribute-name" b with Some t => text_eqb t (zs side) | None => false end).
  { intros b. unfold attr_is. destruct (attr "attribute-name" b); [|reflexivity]. reflexivity. }
  induction (kids_of_node x) as [|b l IH]; [reflexivity|]. cbn [filter]. rewrite Q. destruct (named_node "Border" b); cbn [andb filter].
  - destruct (match attr "attribute-name" b with Some t => text_eqb t (zs side) | None => false end); rewrite IH; reflexivity.
  - exact IH.
Qed.
Lemma fill_no_border : forall side x, In side sides -> declared (zs ("border-" ++ side)) (fill_declarations measure document x) = None.
Proof.
  intros side x I.
  assert (N : forall {A} (f : A -> list declaration) l, (forall y, declared (zs ("border-" ++ side)) (f y) = None) -> declared (zs ("border-" ++ side)) (flat_map f l) = None).
  { induction l as [|y l IH]; intros H; [reflexivity|]. cbn [flat_map]. rewrite declared_app, (IH H). apply H. }
  unfold fill_declarations. rewrite !declared_app.
  rewrite !N; [reflexivity| | |]; intros y; unfold when;
    repeat match goal with |- context [if ?b then _ else _] => destruct b end; repeat (destruct I as [<-|I]; [reflexivity|]); contradiction.
Qed.
Lemma box_borders : forall t pre n x outer side, In t ["td"; "table"] -> pre = [] \/ pre = [zs "TableControl"] ->
  nth_error (children_named "BorderFill" m) n = Some x -> In side sides ->
  cascade rules (zs t, pre ++ [zs "borderfill-" ++ fmt_d (Z.of_nat (S n))]) outer ("border-" ++ side) = Some (flat_map border_value (border side x)).
Proof.
  intros t pre n x outer side It P N I. rewrite (box_cascade t pre n x) by assumption. unfold borderfill_rules. cbn [flat_map r_declarations]. rewrite app_nil_r.
  rewrite declared_app, fill_no_border by exact I. rewrite <- border_is by exact I.
  repeat (destruct I as [<-|I]; [reflexivity|]). contradiction.
Qed.
End Boxes.

(** ** Pages *)
Section Nodes.
Variable P : xnode -> Prop.
Hypothesis HC : forall t, P (Characters t).
Hypothesis HE : forall n a kids, Forall P kids -> P (Element n a kids).
Fixpoint xnode_all (x : xnode) : P x :=
  match x with
  | Characters t => HC t
  | Element n a kids => HE n a kids ((fix go (l : list xnode) : Forall P l := match l with [] => Forall_nil _ | y :: r => Forall_cons _ (xnode_all y) (go r) end) kids)
  end.
End Nodes.

Lemma name_is_spec : forall s n, name_is s n = true <-> n = zs s.
Proof. intros s n. unfold name_is. destruct (list_eq_dec Z.eq_dec n (zs s)); split; congruence. Qed.

Lemma flat_map_none : forall {A B} (f : A -> list B) l, (forall x, In x l -> f x = []) -> flat_map f l = [].
Proof. induction l as [|x l IH]; intros H; [reflexivity|]. cbn. rewrite H by (left; reflexivity). apply IH. intros. apply H. right. assumption. Qed.
Lemma flat_map_same : forall {A B} (f g : A -> list B) l, (forall x, In x l -> f x = g x) -> flat_map f l = flat_map g l.
Proof. induction l as [|x l IH]; intros H; [reflexivity|]. cbn. rewrite H by (left; reflexivity). f_equal. apply IH. intros. apply H. right. assumption. Qed.

Section Pages.
Variable style : list xnode -> list Z.
Variable document : list xnode.
Notation show := (show style document).

(** The lines of a paragraph. *)
Definition lines (up : list xnode) (x : xnode) (choose : xnode -> bool) : list xnode :=
  flat_map (fun l => flat_map (fun k => if choose k then show (l :: x :: up) k else []) (kids_of_node l)) (children_named "LineSeg" x).
Definition apart (s : string) (k : xnode) : bool := named_node s k && attr_is "inline" "0" k.
Lemma show_paragraph : forall up x, named_node "Paragraph" x = true ->
  show up x = html "p" [html_attr "class" (paragraph_class document x)] (lines up x in_line) :: lines up x (apart "TableControl") ++ lines up x (apart "GShapeObjectControl").
Proof.
  intros up [n a kids|t] N; [|discriminate]. cbn [named_node] in N.
  assert (Q : forall choose : xnode -> bool, flat_map (fun l => match l with
                               | Element ln _ lk => if name_is "LineSeg" ln then flat_map (fun k => if choose k then show (l :: Element n a kids :: up) k else []) lk else []
                               | Characters _ => [] end) kids = lines up (Element n a kids) choose).
  { intros choose. unfold lines. cbn [children_named]. generalize (Element n a kids). intros y. induction kids as [|l r IH]; [reflexivity|]. cbn [flat_map filter].
    rewrite IH. destruct l as [ln la lk|t]; [|reflexivity]. destruct (name_is "LineSeg" ln); reflexivity. }
  cbn [Model_Html.show]. rewrite N. rewrite !Q. reflexivity.
Qed.

Lemma in_lines : forall up x choose l k y, In l (children_named "LineSeg" x) -> In k (kids_of_node l) -> choose k = true -> In y (show (l :: x :: up) k) -> In y (lines up x choose).
Proof.
  intros up x choose l k y Il Ik C Iy. unfold lines. apply in_flat_map. exists l. split; [exact Il|]. apply in_flat_map. exists k. split; [exact Ik|]. rewrite C. exact Iy.
Qed.
Lemma show_text : forall up p l x, named_node "Paragraph" p = true -> named_node "LineSeg" l = true -> named_node "Text" x = true ->
  show (l :: p :: up) x = [html "span" [html_attr "class" (text_class document p x)] (characters (first_text (kids_of_node x)))].
Proof.
  intros up p l [n a kids|t] Np Nl Nx; [|discriminate]. cbn [named_node] in Nx. apply name_is_spec in Nx. subst n.
  cbn [Model_Html.show]. change (name_is "Paragraph" (zs "Text")) with false. change (name_is "ControlChar" (zs "Text")) with false. change (name_is "Text" (zs "Text")) with true.
  cbv iota. rewrite Np, Nl. reflexivity.
Qed.

Lemma page_app : forall a b, flat_map page_text (a ++ b) = flat_map page_text a ++ flat_map page_text b.
Proof. intros. apply flat_map_app. Qed.
Lemma page_characters : forall t, flat_map page_text (characters t) = t.
Proof. intros [|c t]; [reflexivity|]. cbn. rewrite app_nil_r. reflexivity. Qed.
Lemma page_nested : forall (f : xnode -> list xnode) l, flat_map page_text (flat_map f l) = flat_map (fun x => flat_map page_text (f x)) l.
Proof. induction l as [|x l IH]; [reflexivity|]. cbn [flat_map]. rewrite page_app, IH. reflexivity. Qed.

Lemma wordless_parts : forall x y, wordless x = true -> In y (parts x) -> exists n a k, y = Element n a k /\ forall s, In s with_words -> name_is s n = false.
Proof.
  intros x y W I. unfold wordless in W. rewrite forallb_forall in W. specialize (W y I). destruct y as [n a k|t]; [|discriminate]. exists n, a, k. split; [reflexivity|]. intros s Is.
  apply negb_true_iff in W. destruct (name_is s n) eqn:E; [|reflexivity]. exfalso. assert (X : existsb (fun s => name_is s n) with_words = true) by (apply existsb_exists; exists s; auto). congruence.
Qed.
Lemma wordless_self : forall x, wordless x = true -> exists n a k, x = Element n a k /\ forall s, In s with_words -> name_is s n = false.
Proof. intros x W. apply (wordless_parts x x W). destruct x; left; reflexivity. Qed.
Lemma wordless_kids : forall n a kids k, wordless (Element n a kids) = true -> In k kids -> wordless k = true.
Proof.
  intros n a kids k W I. unfold wordless in *. cbn [parts forallb] in W. apply andb_true_iff in W as [_ W]. rewrite forallb_forall in *. intros y Iy. apply W. apply in_flat_map. exists k. auto.
Qed.
Lemma wordless_spoken : forall x, wordless x = true -> spoken x = [].
Proof.
  intros x. induction x as [t|n a kids IH] using xnode_all; intros W; [discriminate|].
  destruct (wordless_self _ W) as (n' & a' & k' & E & N). injection E as <- <- <-. cbn [spoken]. rewrite (N "Text"), (N "ControlChar"), (N "Paragraph") by listed. rewrite app_nil_r.
  apply flat_map_none. intros k K. rewrite Forall_forall in IH. apply IH; [exact K|]. exact (wordless_kids _ _ _ _ W K).
Qed.
Lemma wordless_silent : forall x, wordless x = true -> apply_templates x = [].
Proof.
  intros x. induction x as [t|n a kids IH] using xnode_all; intros W; [discriminate|].
  destruct (wordless_self _ W) as (n' & a' & k' & E & N). injection E as <- <- <-. cbn [apply_templates]. rewrite (N "Text"), (N "ControlChar"), (N "Paragraph"), (N "TableControl"), (N "GShapeObjectControl") by listed.
  apply flat_map_none. intros k K. rewrite Forall_forall in IH. apply IH; [exact K|]. exact (wordless_kids _ _ _ _ W K).
Qed.

Lemma show_only_text : forall x up, only_text x = true -> flat_map page_text (show up x) = spoken x.
Proof.
  intros x. induction x as [t|n a kids IH] using xnode_all; intros up O; [cbn; rewrite app_nil_r; reflexivity|].
  cbn [only_text] in O. apply andb_true_iff in O as [O1 O2]. apply negb_true_iff in O1. cbn [existsb] in O1.
  destruct (name_is "Paragraph" n) eqn:Np.
  - rewrite show_paragraph by exact Np. cbn [flat_map]. rewrite page_app.
    assert (Q : forall s, In s ["TableControl"; "GShapeObjectControl"] -> lines up (Element n a kids) (apart s) = []).
    { intros s Is. unfold lines. cbn [children_named]. rewrite forallb_forall in O2.
      apply flat_map_none. intros l I. apply filter_In in I as [I _]. specialize (O2 l I). destruct l as [ln la lk|]; [|discriminate]. apply andb_true_iff in O2 as [_ O2].
      rewrite forallb_forall in O2. cbn [kids_of_node]. apply flat_map_none. intros k Ik. specialize (O2 k Ik). unfold apart.
      assert (E : named_node s k = false); [|rewrite E; reflexivity]. apply orb_true_iff in O2 as [O2|O2]; [apply orb_true_iff in O2 as [O2|O2]; [|apply andb_true_iff in O2 as [O2 _]]|].
      - destruct k as [kn ka kk|]; [|discriminate]. cbn [named_node] in *. apply name_is_spec in O2. subst kn. destruct Is as [<-|[<-|[]]]; reflexivity.
      - destruct k as [kn ka kk|]; [|discriminate]. cbn [named_node] in *. apply name_is_spec in O2. subst kn. destruct Is as [<-|[<-|[]]]; reflexivity.
      - destruct (wordless_self _ O2) as (kn & ka & kk & -> & N). cbn [named_node]. apply N. destruct Is as [<-|[<-|[]]]; listed. }
    rewrite !Q by listed. cbn [flat_map app]. rewrite app_nil_r. clear Q.
    cbn [page_text html spoken]. rewrite Np. change (name_is "p" (zs "p")) with true.
    assert (NT : name_is "Text" n = false) by (apply name_is_spec in Np; subst n; reflexivity). assert (NC : name_is "ControlChar" n = false) by (apply name_is_spec in Np; subst n; reflexivity).
    rewrite NT, NC. cbv iota. f_equal. clear NT NC.
    unfold lines. cbn [children_named]. clear O1.
    assert (R : forall ls, forallb (fun l => match l with Element ln _ lk => name_is "LineSeg" ln && forallb (fun k => named_node "Text" k || control_char k || wordless k) lk | Characters _ => false end) ls = true ->
      flat_map page_text (flat_map (fun l => flat_map (fun k => if in_line k then show (l :: Element n a kids :: up) k else []) (kids_of_node l))
        (filter (fun k => match k with Element n0 _ _ => name_is "LineSeg" n0 | Characters _ => false end) ls)) = flat_map spoken ls).
    { induction ls as [|l ls IHl]; intros F; [reflexivity|]. cbn [forallb] in F. apply andb_true_iff in F as [F1 F2].
      destruct l as [ln la lk|]; [|discriminate]. apply andb_true_iff in F1 as [F1 F3]. cbn [filter]. rewrite F1. cbn [flat_map]. rewrite page_app, IHl by exact F2. f_equal.
      apply name_is_spec in F1. subst ln. cbn [kids_of_node]. cbn [spoken].
      repeat match goal with |- context [name_is ?s (zs "LineSeg")] => change (name_is s (zs "LineSeg")) with false end. cbv iota. rewrite app_nil_r.
      rewrite page_nested. apply flat_map_same. intros k Ik. rewrite forallb_forall in F3. specialize (F3 k Ik). rename F3 into K.
      apply orb_true_iff in K as [K|K]; [apply orb_true_iff in K as [K|K]|].
      - unfold in_line. rewrite K. cbn [orb]. rewrite show_text by (try exact Np; try exact K; reflexivity). cbn [flat_map page_text html]. rewrite page_characters.
        change (name_is "p" (zs "span")) with false. cbv iota. rewrite !app_nil_r. destruct k as [kn ka kk|]; [|discriminate]. cbn [named_node] in K. apply name_is_spec in K. subst kn.
        reflexivity.
      - apply andb_true_iff in K as [K _]. destruct k as [kn ka kk|]; [|discriminate]. cbn [named_node] in K. apply name_is_spec in K. subst kn.
        change (in_line (Element (zs "ControlChar") ka kk)) with true. cbv iota. cbn [Model_Html.show]. change (name_is "Paragraph" (zs "ControlChar")) with false. change (name_is "ControlChar" (zs "ControlChar")) with true. cbv iota.
        rewrite page_characters. reflexivity.
      - rewrite (wordless_spoken k K). destruct (wordless_self _ K) as (kn & ka & kk & -> & N). unfold in_line. cbn [named_node].
        rewrite (N "Text"), (N "ControlChar"), (N "AutoNumbering"), (N "TableControl"), (N "GShapeObjectControl") by listed. reflexivity. }
    apply R. exact O2.
  - cbn [spoken]. rewrite Np.
    apply orb_false_iff in O1 as [Q1 O1]. apply orb_false_iff in O1 as [Q2 O1]. apply orb_false_iff in O1 as [Q3 O1]. apply orb_false_iff in O1 as [Q4 O1].
    apply orb_false_iff in O1 as [Q5 O1]. apply orb_false_iff in O1 as [Q6 _].
    rewrite Q1, Q2, app_nil_r. cbn [Model_Html.show]. rewrite Np, Q1, Q2, Q3, Q4, Q5, Q6. cbn [andb].
    assert (K : flat_map page_text (flat_map (show (Element n a kids :: up)) kids) = flat_map spoken kids).
    { rewrite page_nested. generalize (Element n a kids :: up). intros up'. clear -IH O2. induction kids as [|k kids IHk]; [reflexivity|]. cbn [forallb] in O2. apply andb_true_iff in O2 as [Ok O2].
      inversion IH; subst. cbn [flat_map]. rewrite H1 by exact Ok. rewrite IHk by assumption. reflexivity. }
    destruct (name_is "TableCaption" n); [cbn [flat_map page_text html]; change (name_is "p" (zs "caption")) with false; cbv iota; rewrite !app_nil_r; exact K|].
    destruct (name_is "TableRow" n); [cbn [flat_map page_text html]; change (name_is "p" (zs "tr")) with false; cbv iota; rewrite !app_nil_r; exact K|].
    destruct (name_is "TableCell" n); [cbn [flat_map page_text html]; change (name_is "p" (zs "td")) with false; cbv iota; rewrite !app_nil_r; exact K|].
    exact K.
Qed.
(** Without the control characters it is what hwp5txt writes. *)
Lemma spoken_text : forall x, only_text x = true -> (forall y, In y (parts x) -> named_node "ControlChar" y = true -> attr "char" y = None) -> spoken x = apply_templates x.
Proof.
  intros x. induction x as [t|n a kids IH] using xnode_all; intros O C; [reflexivity|].
  cbn [only_text] in O. apply andb_true_iff in O as [O1 O2]. apply negb_true_iff in O1. cbn [existsb] in O1.
  apply orb_false_iff in O1 as [Q1 O1]. apply orb_false_iff in O1 as [Q2 O1]. apply orb_false_iff in O1 as [Q3 O1]. apply orb_false_iff in O1 as [Q4 O1]. apply orb_false_iff in O1 as [Q5 O1].
  cbn [spoken apply_templates]. rewrite Q1, Q2, Q4, Q5. destruct (name_is "Paragraph" n) eqn:Np.
  - f_equal. apply flat_map_same. intros l L. rewrite forallb_forall in O2. specialize (O2 l L). destruct l as [ln la lk|]; [|discriminate]. apply andb_true_iff in O2 as [F1 F2].
    apply name_is_spec in F1. subst ln. cbn [spoken apply_templates]. repeat match goal with |- context [name_is ?s (zs "LineSeg")] => change (name_is s (zs "LineSeg")) with false end. cbv iota. rewrite app_nil_r.
    apply flat_map_same. intros k K. rewrite forallb_forall in F2. specialize (F2 k K). apply orb_true_iff in F2 as [F2|F2]; [apply orb_true_iff in F2 as [F2|F2]|].
    + destruct k as [kn ka kk|]; [|discriminate]. cbn [named_node] in F2. apply name_is_spec in F2. subst kn. reflexivity.
    + apply andb_true_iff in F2 as [F2 _]. destruct k as [kn ka kk|]; [|discriminate]. assert (A : attr "char" (Element kn ka kk) = None).
      { apply C; [|exact F2]. cbn [parts]. right. apply in_flat_map. exists (Element (zs "LineSeg") la lk). split; [exact L|]. cbn [parts]. right. apply in_flat_map. exists (Element kn ka kk). split; [exact K|]. left. reflexivity. }
      cbn [named_node] in F2. apply name_is_spec in F2. subst kn. cbn [spoken apply_templates]. unfold value_of. rewrite A. reflexivity.
    + rewrite (wordless_spoken k F2), (wordless_silent k F2). reflexivity.
  - rewrite app_nil_r. apply flat_map_same. intros k K. rewrite Forall_forall in IH. apply IH; [exact K|rewrite forallb_forall in O2; apply O2; exact K|].
    intros y Y. apply C. cbn [parts]. right. apply in_flat_map. exists k. auto.
Qed.

(** Every [p] is a paragraph of the document. *)
Lemma below_self : forall up x, In x (map self (below up x)).
Proof. intros up [n a k|t]; left; reflexivity. Qed.
Lemma below_kid : forall up n a kids k q, In k kids -> In q (map self (below (Element n a kids :: up) k)) -> In q (map self (below up (Element n a kids))).
Proof.
  intros up n a kids k q I Q. cbn [below map]. right. apply in_map_iff in Q as (path & E & Q). apply in_map_iff. exists path. split; [exact E|].
  apply in_flat_map. exists k. split; assumption.
Qed.
Lemma below_up : forall x up up', map self (below up x) = map self (below up' x).
Proof.
  induction x as [t|n a kids IH] using xnode_all; intros up up'; [reflexivity|]. cbn [below map self]. f_equal.
  assert (Q : forall u u', map self (flat_map (below u) kids) = map self (flat_map (below u') kids)).
  { intros u u'. clear -IH. induction kids as [|k kids IHk]; [reflexivity|]. inversion IH; subst. cbn [flat_map]. rewrite !map_app. rewrite (H1 u u'), IHk by assumption. reflexivity. }
  apply Q.
Qed.
Definition is_p_of (up : list xnode) (x y : xnode) : Prop :=
  exists q, In q (map self (below up x)) /\ named_node "Paragraph" q = true /\ attr "class" y = Some (paragraph_class document q).
Lemma parts_nested : forall {A} (f : A -> list xnode) l, flat_map parts (flat_map f l) = flat_map (fun x => flat_map parts (f x)) l.
Proof. induction l as [|x l IH]; [reflexivity|]. cbn [flat_map]. rewrite flat_map_app, IH. reflexivity. Qed.
Lemma xnode_two : forall P : xnode -> Prop, (forall t, P (Characters t)) ->
  (forall n a kids, Forall P kids -> Forall (fun k => Forall P (kids_of_node k)) kids -> P (Element n a kids)) -> forall x, P x.
Proof.
  intros P HC HE x. apply (xnode_all (fun x => P x /\ Forall P (kids_of_node x))).
  - intros t. split; [apply HC|constructor].
  - intros n a kids F. assert (F1 : Forall P kids) by (eapply Forall_impl; [|exact F]; intros ? [H _]; exact H). split; [|exact F1].
    apply HE; [exact F1|]. eapply Forall_impl; [|exact F]. intros ? [_ H]. exact H.
Qed.
Lemma all_ps : forall x up y, In y (flat_map parts (show up x)) -> named_node "p" y = true -> is_p_of up x y.
Proof.
  induction x as [t|n a kids IH IH2] using xnode_two; intros up y I Y; [destruct I as [<-|[]]; discriminate|].
  assert (Kids : forall u, In y (flat_map parts (flat_map (show u) kids)) -> is_p_of up (Element n a kids) y).
  { intros u J. rewrite parts_nested in J. apply in_flat_map in J as (k & Ik & J). rewrite Forall_forall in IH. destruct (IH k Ik u y J Y) as (q & Iq & Nq & Cq).
    exists q. split; [|split; assumption]. apply (below_kid up n a kids k q Ik). rewrite (below_up k _ u). exact Iq. }
  assert (Wrap : forall s at' u, name_is "p" (zs s) = false -> In y (flat_map parts [html s at' (flat_map (show u) kids)]) -> is_p_of up (Element n a kids) y).
  { intros s at' u Ns J. cbn [flat_map parts html] in J. rewrite app_nil_r in J. destruct J as [<-|J]; [cbn [named_node] in Y; congruence|]. eapply Kids, J. }
  assert (Chars : forall t, ~ (In y (flat_map parts (characters t)))).
  { intros t J. destruct t; [contradiction|]. destruct J as [<-|[]]. discriminate. }
  assert (Leaf : forall s at' t, name_is "p" (zs s) = false -> In y (flat_map parts [html s at' (characters t)]) -> is_p_of up (Element n a kids) y).
  { intros s at' t Ns J. cbn [flat_map parts html] in J. rewrite app_nil_r in J. destruct J as [<-|J]; [cbn [named_node] in Y; congruence|]. destruct (Chars _ J). }
  destruct (name_is "Paragraph" n) eqn:Np.
  - assert (Lines : forall choose, In y (flat_map parts (lines up (Element n a kids) choose)) -> is_p_of up (Element n a kids) y).
    { intros choose J. unfold lines in J. rewrite parts_nested in J. apply in_flat_map in J as (l & Il & J). rewrite parts_nested in J. apply in_flat_map in J as (k & Ik & J).
      cbn [children_named] in Il. apply filter_In in Il as [Il _].
      destruct (choose k); [|contradiction]. destruct l as [ln la lk|]; [|contradiction]. cbn [kids_of_node] in Ik.
      rewrite Forall_forall in IH2. specialize (IH2 _ Il). cbn [kids_of_node] in IH2. rewrite Forall_forall in IH2.
      destruct (IH2 k Ik _ y J Y) as (q & Iq & Nq & Cq). exists q. split; [|split; assumption].
      eapply below_kid; [exact Il|]. eapply below_kid; [exact Ik|]. exact Iq. }
    rewrite show_paragraph in I by exact Np. cbn [flat_map] in I. apply in_app_or in I as [I|I].
    + cbn [parts html] in I. destruct I as [<-|I]; [|eapply Lines, I].
      exists (Element n a kids). split; [apply below_self|]. split; [exact Np|]. reflexivity.
    + rewrite flat_map_app in I. apply in_app_or in I as [I|I]; eapply Lines, I.
  - cbn [Model_Html.show] in I. rewrite Np in I.
    destruct (name_is "ControlChar" n); [destruct (Chars _ I)|].
    destruct (name_is "Text" n && match up with l :: p :: _ => named_node "LineSeg" l && named_node "Paragraph" p | _ => false end);
      [eapply Leaf; [|exact I]; reflexivity|].
    destruct (name_is "AutoNumbering" n); [eapply Leaf; [|exact I]; reflexivity|].
    destruct (name_is "TableControl" n && attr_is "inline" "1" (Element n a kids)).
    { cbn [flat_map parts html] in I. rewrite !app_nil_r in I. destruct I as [<-|[<-|I]]; [discriminate|discriminate|]. eapply Kids, I. }
    destruct (name_is "TableControl" n && attr_is "inline" "0" (Element n a kids)); [eapply Wrap; [|exact I]; reflexivity|].
    destruct (name_is "TableCaption" n); [eapply Wrap; [|exact I]; reflexivity|].
    destruct (name_is "TableRow" n); [eapply Wrap; [|exact I]; reflexivity|].
    destruct (name_is "TableCell" n); [eapply Wrap; [|exact I]; reflexivity|].
    destruct (name_is "GShapeObjectControl" n && attr_is "inline" "1" (Element n a kids)); [eapply Wrap; [|exact I]; reflexivity|].
    destruct (name_is "GShapeObjectControl" n && attr_is "inline" "0" (Element n a kids)); [eapply Wrap; [|exact I]; reflexivity|].
    destruct (name_is "ShapePicture" n); [destruct I as [<-|[]]; discriminate|].
    eapply Kids, I.
Qed.

(** The nodes of a document. *)
Lemma below_kids : forall x up q k, In q (map self (below up x)) -> In k (kids_of_node q) -> In k (map self (below up x)).
Proof.
  induction x as [t|n a kids IH] using xnode_all; intros up q k I K.
  - destruct I as [<-|[]]. contradiction.
  - cbn [below map self] in I. destruct I as [<-|I].
    + cbn [kids_of_node] in K. apply (below_kid up n a kids k k K). apply below_self.
    + apply in_map_iff in I as (path & E & I). apply in_flat_map in I as (j & Ij & I). rewrite Forall_forall in IH.
      apply (below_kid up n a kids j k Ij). apply (IH j Ij _ q); [|exact K]. apply in_map_iff. exists path. split; assumption.
Qed.
Lemma nodes_kids : forall q k, In q (map self (all_nodes document)) -> In k (kids_of_node q) -> In k (map self (all_nodes document)).
Proof.
  intros q k I K. unfold all_nodes in *. apply in_map_iff in I as (path & E & I). apply in_flat_map in I as (x & Ix & I).
  assert (J : In k (map self (below [] x))) by (apply (below_kids x [] q); [apply in_map_iff; exists path; split; assumption|exact K]).
  apply in_map_iff in J as (path' & E' & J). apply in_map_iff. exists path'. split; [exact E'|]. apply in_flat_map. exists x. split; assumption.
Qed.
Lemma nodes_below : forall x up q, In x (map self (all_nodes document)) -> In q (map self (below up x)) -> In q (map self (all_nodes document)).
Proof.
  induction x as [t|n a kids IH] using xnode_all; intros up q X I.
  - destruct I as [<-|[]]. exact X.
  - cbn [below map self] in I. destruct I as [<-|I]; [exact X|]. apply in_map_iff in I as (path & E & I). apply in_flat_map in I as (j & Ij & I). rewrite Forall_forall in IH.
    apply (IH j Ij (Element n a kids :: up)); [|apply in_map_iff; exists path; split; assumption].
    apply (nodes_kids (Element n a kids)); assumption.
Qed.
Lemma nodes_root : forall x, In x document -> In x (map self (all_nodes document)).
Proof.
  intros x I. pose proof (below_self [] x) as J. apply in_map_iff in J as (path & E & J). apply in_map_iff. exists path. split; [exact E|].
  apply in_flat_map. exists x. split; assumption.
Qed.
Lemma nodes_named : forall s q k, In q (map self (all_nodes document)) -> In k (children_named s q) -> In k (map self (all_nodes document)).
Proof. intros s q k I K. apply (nodes_kids q); [exact I|]. rewrite children_filter in K. apply filter_In in K as [K _]. exact K. Qed.

Lemma page_ps : forall y, In y (flat_map parts (body style document)) -> named_node "p" y = true ->
  exists q, In q (map self (all_nodes document)) /\ named_node "Paragraph" q = true /\ attr "class" y = Some (paragraph_class document q).
Proof.
  intros y I Y. unfold body in I. apply in_flat_map in I as (b & Ib & I). apply in_flat_map in Ib as (d & Id & Ib). apply filter_In in Id as [Id _].
  apply in_map_iff in Ib as (bt & <- & Ibt). cbn [parts html] in I. destruct I as [<-|I]; [discriminate|].
  apply in_flat_map in I as (sd & Isd & I). apply in_map_iff in Isd as (se & <- & Ise).
  assert (Se : In se (map self (all_nodes document))) by (eapply nodes_named; [|exact Ise]; eapply nodes_named; [|exact Ibt]; apply nodes_root; exact Id).
  assert (Shown : forall x up, In x (map self (all_nodes document)) -> In y (flat_map parts (show up x)) ->
    exists q, In q (map self (all_nodes document)) /\ named_node "Paragraph" q = true /\ attr "class" y = Some (paragraph_class document q)).
  { intros x up X J. destruct (all_ps x up y J Y) as (q & Iq & Nq & Cq). exists q. split; [|split; assumption]. eapply nodes_below; eassumption. }
  assert (Area : forall cls ln paths, (forall path, In path paths -> In (self path) (map self (all_nodes document))) -> In y (flat_map parts (flat_map (area style document cls ln) paths)) ->
    exists q, In q (map self (all_nodes document)) /\ named_node "Paragraph" q = true /\ attr "class" y = Some (paragraph_class document q)).
  { intros cls ln paths Hp J. rewrite parts_nested in J. apply in_flat_map in J as (path & Ip & J). cbn [area flat_map parts html] in J. rewrite app_nil_r in J.
    destruct J as [<-|J]; [discriminate|]. rewrite parts_nested in J. apply in_flat_map in J as (l & Il & J). rewrite parts_nested in J. apply in_flat_map in J as (k & Ik & J).
    apply (Shown k (l :: path)); [|exact J]. eapply nodes_named; [|exact Ik]. eapply nodes_named; [|exact Il]. apply Hp. exact Ip. }
  assert (Hp : forall s path, In path (filter (fun p => named_node s (self p)) (all_nodes document)) -> In (self path) (map self (all_nodes document))).
  { intros s path J. apply filter_In in J as [J _]. apply in_map. exact J. }
  cbn [section_div parts html] in I. destruct I as [<-|I]; [discriminate|]. cbn [flat_map parts html] in I. rewrite app_nil_r in I. destruct I as [<-|I]; [discriminate|].
  rewrite !flat_map_app in I. apply in_app_or in I as [I|I]; [eapply Area; [|exact I]; apply Hp|]. apply in_app_or in I as [I|I]; [|eapply Area; [|exact I]; apply Hp].
  cbn [flat_map parts html] in I. rewrite app_nil_r in I. destruct I as [<-|I]; [discriminate|].
  rewrite parts_nested in I. apply in_flat_map in I as (k & Ik & I). eapply (Shown k); [|exact I]. eapply nodes_kids; eassumption.
Qed.

(** The text of a page. *)
Lemma body_text : headers document = [] -> footers document = [] ->
  (forall b, In b (flat_map (children_named "BodyText") (filter (named_node "HwpDoc") document)) ->
     Forall (fun k => named_node "SectionDef" k = true /\ only_text k = true) (kids_of_node b)) ->
  flat_map page_text (body style document) =
  flat_map (fun b => flat_map spoken (kids_of_node b)) (flat_map (children_named "BodyText") (filter (named_node "HwpDoc") document)).
Proof.
  intros Hh Hf Hb. unfold body. rewrite page_nested.
  assert (Q : forall ds, (forall b, In b (flat_map (children_named "BodyText") ds) -> Forall (fun k => named_node "SectionDef" k = true /\ only_text k = true) (kids_of_node b)) ->
    flat_map (fun d => flat_map page_text (map (fun b => html "body" [] (map (section_div style document [b; d]) (children_named "SectionDef" b))) (children_named "BodyText" d))) ds =
    flat_map (fun b => flat_map spoken (kids_of_node b)) (flat_map (children_named "BodyText") ds)).
  { induction ds as [|d ds IH]; intros H; [reflexivity|]. cbn [flat_map]. rewrite flat_map_app. rewrite IH by (intros; apply H; cbn [flat_map]; apply in_or_app; right; assumption). f_equal.
    assert (Hd : forall b, In b (children_named "BodyText" d) -> Forall (fun k => named_node "SectionDef" k = true /\ only_text k = true) (kids_of_node b)) by (intros b J; apply H; cbn [flat_map]; apply in_or_app; left; exact J).
    rewrite flat_map_map. apply flat_map_same. intros b J. specialize (Hd b J). cbn [page_text html]. change (name_is "p" (zs "body")) with false. cbv iota. rewrite app_nil_r.
    rewrite flat_map_map. rewrite children_filter.
    assert (E : filter (named_node "SectionDef") (kids_of_node b) = kids_of_node b).
    { clear -Hd. induction Hd as [|k l [N _] F IHk]; [reflexivity|]. cbn [filter]. rewrite N, IHk. reflexivity. }
    rewrite E. apply flat_map_same. intros k Ik. rewrite Forall_forall in Hd. destruct (Hd k Ik) as [Nk Ok].
    unfold section_div. rewrite Hh, Hf. cbn [flat_map app page_text html]. change (name_is "p" (zs "div")) with false. cbv iota. rewrite !app_nil_r.
    destruct k as [n a kids|t]; [|discriminate]. cbn [named_node] in Nk. apply name_is_spec in Nk. subst n. cbn [kids_of_node spoken].
    repeat match goal with |- context [name_is ?s (zs "SectionDef")] => change (name_is s (zs "SectionDef")) with false end. cbv iota. rewrite app_nil_r.
    cbn [only_text] in Ok. apply andb_true_iff in Ok as [_ Ok]. change (name_is "Paragraph" (zs "SectionDef")) with false in Ok. cbv iota in Ok.
    rewrite page_nested. apply flat_map_same. intros j Ij. apply show_only_text. rewrite forallb_forall in Ok. apply Ok. exact Ij. }
  apply Q. exact Hb.
Qed.
Lemma body_same_text : headers document = [] -> footers document = [] ->
  (forall b, In b (flat_map (children_named "BodyText") (filter (named_node "HwpDoc") document)) ->
     Forall (fun k => named_node "SectionDef" k = true /\ only_text k = true) (kids_of_node b) /\
     Forall (fun y => attr "char" y = None) (page_elements "ControlChar" (kids_of_node b))) ->
  flat_map page_text (body style document) = root_template document.
Proof.
  intros Hh Hf Hb. rewrite body_text; [|exact Hh|exact Hf|intros b J; apply (Hb b J)]. unfold root_template. apply flat_map_same. intros b J. destruct (Hb b J) as [F C].
  apply flat_map_same. intros k K. rewrite Forall_forall in F, C. apply spoken_text; [apply F; exact K|]. intros y Y N. apply C. apply filter_In. split; [|exact N]. apply in_flat_map. exists k. auto.
Qed.

(** Pictures. *)
Lemma bin_data_is : forall m k b, mapped document m -> nth_error (children_named "BinData" m) k = Some b -> bin_data document (Some (Z.of_nat (S k))) = [b].
Proof.
  intros m k b M N. unfold bin_data. rewrite (md_path _ _ M). cbn [flat_map]. rewrite app_nil_r. replace (Z.of_nat (S k)) with (Z.of_nat k + 1) by lia.
  apply nth_child_is. exact N.
Qed.
Lemma show_picture : forall m up x info b d, mapped document m -> named_node "ShapePicture" x = true -> children_named "PictureInfo" x = [info] ->
  refers1 "bindata-id" info (children_named "BinData" m) b -> named_node "BinData" b = true -> kids_of_node b = [d] -> named_node "BinDataEmbedding" d = true ->
  show up x = [html "img" [html_attr "src" (if attr_is "inline" "true" d then zs "data:;base64," ++ first_text (kids_of_node d)
                                             else zs "bindata/" ++ value_of "storage-id" d ++ zs "." ++ value_of "ext" d);
                           html_attr "style" (style (x :: up))] []].
Proof.
  intros m up x info b d M Nx Ci (k & A & N) Nb Kb Nd. destruct x as [n a kids|]; [|discriminate]. cbn [named_node] in Nx. apply name_is_spec in Nx. subst n.
  cbn [Model_Html.show].
  repeat match goal with |- context [name_is ?s (zs "ShapePicture")] => first [change (name_is s (zs "ShapePicture")) with false|change (name_is s (zs "ShapePicture")) with true] end.
  cbn [andb]. cbv iota. rewrite Ci. unfold number_of. rewrite A. rewrite number_fmt. rewrite (bin_data_is m k b M N). cbn [flat_map]. rewrite app_nil_r.
  destruct b as [bn ba bk|]; [|discriminate]. cbn [kids_of_node] in Kb. subst bk. cbn [named_node] in Nb. apply name_is_spec in Nb. subst bn. cbn [img_src].
  change (name_is "BinDataEmbedding" (zs "BinData")) with false. cbv iota. cbn [flat_map]. rewrite app_nil_r.
  destruct d as [dn da dk|]; [|discriminate]. cbn [named_node] in Nd. cbn [img_src]. rewrite Nd. reflexivity.
Qed.
End Pages.
