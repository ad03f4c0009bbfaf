(** Proofs about the texts of hwp5odt: values of properties, tables, drawings, pages. *)
From Coq Require Import ZArith String List Bool Lia.
From Verif Require Import Base Model_Text Model_XmlText Model_Plaintext Model_Html Spec_Text Spec_Html Proof_Html Proof_Html2 Proof_Html3 Model_Opendoc Spec_Opendoc Proof_Opendoc Proof_Opendoc2.
Import ListNotations.
Open Scope string_scope.
Open Scope list_scope.
Open Scope Z_scope.

(** ** Values *)

Lemma attr_is_spec : forall s v x, attr_is s v x = true <-> attr s x = Some (zs v).
Proof.
  intros s v x. unfold attr_is. destruct (attr s x) as [t|]; [|split; discriminate]. rewrite name_is_spec. split; [intros ->; reflexivity|intros E; apply some_inj in E; exact E].
Qed.
Lemma attr_is_not : forall s v x, attr s x <> Some (zs v) -> attr_is s v x = false.
Proof. intros s v x N. destruct (attr_is s v x) eqn:E; [|reflexivity]. apply attr_is_spec in E. contradiction. Qed.
Lemma attr_is_other : forall s v w x, attr s x = Some (zs w) -> attr_is s v x = name_is v (zs w).
Proof. intros s v w x E. unfold attr_is. rewrite E. reflexivity. Qed.
Lemma text_align_is : forall x, text_align x = alignment x.
Proof.
  intros x. unfold text_align, alignment, attr_is. destruct (attr "align" x) as [t|]; [|reflexivity].
  destruct (name_is "both" t) eqn:E1; [apply name_is_spec in E1; subst t; reflexivity|].
  destruct (name_is "left" t) eqn:E2; [apply name_is_spec in E2; subst t; reflexivity|].
  destruct (name_is "right" t) eqn:E3; [apply name_is_spec in E3; subst t; reflexivity|].
  destruct (name_is "center" t) eqn:E4; [apply name_is_spec in E4; subst t; reflexivity|].
  assert (Q : forall s, name_is s t = text_eqb t (zs s)) by reflexivity. rewrite Q in E2, E3, E4. rewrite E2, E3, E4. cbn [orb].
  destruct (name_is "distribute" t); [reflexivity|]. destruct (name_is "distribute_space" t); reflexivity.
Qed.

Section Values.
  Variable measure : string -> xnode -> list Z.
  Variable document : list xnode.
  Lemma align_value_is : forall x, lookup (zs "fo:text-align") (para_attributes measure x) = Some (alignment x).
  Proof. intros x. rewrite <- text_align_is. reflexivity. Qed.
  Lemma length_is : forall prop k x, In (prop, k) lengths -> lookup (zs prop) (para_attributes measure x) = Some (measure k x).
  Proof. intros prop k x I. repeat (destruct I as [[= <- <-]|I]; [reflexivity|]). contradiction. Qed.
  Lemma no_break : forall x, lookup (zs "fo:break-before") (para_attributes measure x) = None.
  Proof.
    intros x. unfold para_attributes. rewrite lookup_app. change (lookup _ (_ :: _)) with (@None (list Z)). cbv iota.
    destruct (attr_is "linespacing-type" "ratio" x); [reflexivity|]. destruct (attr_is "linespacing-type" "fixed" x); [reflexivity|].
    destruct (attr_is "linespacing-type" "spaceonly" x); reflexivity.
  Qed.
  Lemma line_height_is : forall t prop k x, In (t, (prop, k)) line_heights -> attr "linespacing-type" x = Some (zs t) -> lookup (zs prop) (para_attributes measure x) = Some (measure k x).
  Proof.
    intros t prop k x I A. unfold para_attributes. rewrite lookup_app, !(attr_is_other _ _ _ _ A).
    repeat (destruct I as [[= <- <- <-]|I]; [reflexivity|]). contradiction.
  Qed.

  (** Texts. *)
  Lemma no_font : forall prop s lang x, zs prop <> zs s -> lookup (zs prop) (font_name document s lang x) = None.
  Proof.
    intros prop s lang x N. unfold font_name. induction (children_named "FontFace" x) as [|f r IH]; [reflexivity|]. cbn [flat_map]. rewrite lookup_app, IH.
    induction (anywhere "FaceName" (plus_one (number_of lang f)) document) as [|g q IHq]; [reflexivity|]. cbn [map lookup put]. destruct (list_eq_dec Z.eq_dec (zs prop) (zs s)); [contradiction|exact IHq].
  Qed.
  Notation said prop x := (attr prop (text_properties measure document x)).
  Lemma said_is : forall prop x, zs prop <> zs "style:font-name" -> zs prop <> zs "style:font-name-asian" -> said prop x =
    lookup (zs prop) ([put "fo:font-size" (measure "font-size-en" x); put "style:font-size-asian" (measure "font-size-ko" x);
        put "style:font-size-complex" (measure "font-size-other" x)] ++
       when_attr (compares (Z.eqb 1) "italic" x) [puts "fo:font-style" "italic"; puts "style:font-style-asian" "italic"; puts "style:font-style-complex" "italic"] ++
       text_line "underline" "underline" x ++ text_line "overline" "overline" x ++ text_line "line-through" "line_through" x ++
       when_attr (compares (Z.eqb 1) "bold" x) [puts "fo:font-weight" "bold"; puts "style:font-weight-asian" "bold"; puts "style:font-weight-complex" "bold"]).
  Proof. intros prop x N1 N2. unfold text_properties, elem. cbn [attr]. rewrite lookup_app, (no_font _ _ _ _ N1), lookup_app, (no_font _ _ _ _ N2). reflexivity. Qed.
  Lemma size_is : forall prop k x, In (prop, k) sizes -> said prop x = Some (measure k x).
  Proof. intros prop k x I. repeat (destruct I as [[= <- <-]|I]; [rewrite said_is by discriminate; reflexivity|]). contradiction. Qed.
  Ltac lines := unfold text_line; repeat match goal with |- context [attr_is ?s ?v ?x] => destruct (attr_is s v x) end; reflexivity.
  Lemma said_bold : forall prop x f, In prop ["fo:font-weight"; "style:font-weight-asian"; "style:font-weight-complex"] -> attr "bold" x = Some (zs (if f : bool then "1" else "0")) ->
    said prop x = if f then Some (zs "bold") else None.
  Proof.
    intros prop x f I A. assert (C : compares (Z.eqb 1) "bold" x = f) by (unfold compares, number_of; rewrite A; destruct f; reflexivity).
    repeat (destruct I as [<-|I]; [rewrite said_is by discriminate; rewrite C, !lookup_app; destruct (compares (Z.eqb 1) "italic" x); unfold when_attr;
      destruct f; lines|]). contradiction.
  Qed.
  Lemma said_italic : forall prop x f, In prop ["fo:font-style"; "style:font-style-asian"; "style:font-style-complex"] -> attr "italic" x = Some (zs (if f : bool then "1" else "0")) ->
    said prop x = if f then Some (zs "italic") else None.
  Proof.
    intros prop x f I A. assert (C : compares (Z.eqb 1) "italic" x = f) by (unfold compares, number_of; rewrite A; destruct f; reflexivity).
    repeat (destruct I as [<-|I]; [rewrite said_is by discriminate; rewrite C, !lookup_app; destruct (compares (Z.eqb 1) "bold" x); unfold when_attr;
      destruct f; lines|]). contradiction.
  Qed.
  Lemma strokes_are : forall u n k x, In (u, (n, k)) text_strokes -> attr "underline-style" x = Some (zs u) -> strokes x = zs n /\ stroke x = zs k.
  Proof.
    intros u n k x I A. unfold strokes, stroke. rewrite !(attr_is_other _ _ _ _ A). repeat (destruct I as [[= <- <- <-]|I]; [split; reflexivity|]). contradiction.
  Qed.
  Ltac skip_italic := match goal with |- context [compares (Z.eqb 1) "italic" ?x] => destruct (compares (Z.eqb 1) "italic" x) end; match goal with |- context [compares (Z.eqb 1) "bold" ?x] => destruct (compares (Z.eqb 1) "bold" x) end; unfold when_attr.
  Lemma said_line : forall v w u n k x, In (v, w) text_lines -> attr "underline" x = Some (zs v) -> In (u, (n, k)) text_strokes -> attr "underline-style" x = Some (zs u) ->
    said ("style:text-" ++ w ++ "-type") x = Some (zs n) /\ said ("style:text-" ++ w ++ "-style") x = Some (zs k) /\
    said ("style:text-" ++ w ++ "-color") x = Some (value_of "underline-color" x).
  Proof.
    intros v w u n k x I A J B. destruct (strokes_are u n k x J B) as [<- <-].
    repeat (destruct I as [[= <- <-]|I]; [repeat split; (rewrite said_is by discriminate); rewrite !lookup_app; unfold text_line; rewrite !(attr_is_other _ _ _ _ A); skip_italic; reflexivity|]).
    contradiction.
  Qed.
  Lemma said_no_line : forall v w x, In (v, w) text_lines -> attr "underline" x <> Some (zs v) -> said ("style:text-" ++ w ++ "-type") x = Some (zs "none").
  Proof.
    intros v w x I A. apply attr_is_not in A.
    repeat (destruct I as [[= <- <-]|I]; [(rewrite said_is by discriminate); rewrite !lookup_app; unfold text_line; rewrite A; skip_italic; lines|]).
    contradiction.
  Qed.
  Lemma no_color : forall x, said "fo:color" x = None.
  Proof. intros x. rewrite said_is by discriminate. rewrite !lookup_app. skip_italic; lines. Qed.
  Lemma said_font : forall m groups g cs face i f, mapped document m -> fonts_by_language m groups -> nth_error groups 0 = Some g -> children_named "FontFace" cs = [face] ->
    attr "ko" face = Some (fmt_d (Z.of_nat i)) -> nth_error g i = Some f -> said "style:font-name-asian" cs = Some (value_of "name" f).
  Proof.
    intros m groups g cs face i f M (L & C & _) G F K N. unfold text_properties, elem. cbn [attr]. rewrite lookup_app, no_font by discriminate. rewrite lookup_app. unfold font_name at 1.
    rewrite F. cbn [flat_map]. rewrite app_nil_r, (anywhere_is _ m) by (try exact M; cbn; auto). unfold number_of. rewrite K, number_fmt. cbn [plus_one option_map].
    rewrite (nth_child_is _ _ i f); [reflexivity|]. rewrite C. destruct groups as [|g' r]; [discriminate|]. injection G as ->. cbn [concat]. rewrite nth_error_app1; [exact N|].
    apply nth_error_Some. rewrite N. discriminate.
  Qed.
End Values.
