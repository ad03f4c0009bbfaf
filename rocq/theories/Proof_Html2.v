(** Proofs about the pages and style sheets of hwp5html, continued: the classes
    on the page, and what they come to. *)
From Coq Require Import ZArith String List Bool Lia.
From Verif Require Import Base Model_Text Model_XmlText Model_Plaintext Model_Html Spec_Text Spec_Html Proof_Text Proof_Html.
Import ListNotations.
Open Scope string_scope.
Open Scope list_scope.
Open Scope Z_scope.

(** ** Classes *)
Definition word (t : list Z) : Prop := t <> [] /\ Forall (fun c => blank c = false) t.
Definition spaced (l : list (list Z)) : list Z := flat_map (fun t => 32 :: t) l.
Lemma spaced_app : forall a b, spaced (a ++ b) = spaced a ++ spaced b.
Proof. intros. apply flat_map_app. Qed.
Lemma words_spaced : forall l t, word t -> Forall word l -> words [] (t ++ spaced l) = t :: l.
Proof.
  induction l as [|u l IH]; intros t [N B] F.
  - cbn. rewrite app_nil_r. apply words_end; assumption.
  - inversion F; subst. cbn [spaced flat_map]. change (t ++ (32 :: u) ++ flat_map (fun t0 => 32 :: t0) l) with (t ++ [32] ++ u ++ spaced l).
    rewrite words_next by assumption. rewrite IH by assumption. reflexivity.
Qed.
Lemma word_digits : forall s t, In s ["parashape-"; "charshape-"; "borderfill-"; "Bullet-"] -> Forall digit t -> word (zs s ++ t).
Proof. intros. apply digits_word; assumption. Qed.

Lemma same_attr_one : forall s st x a b, attr s st = Some a -> attr s x = Some b -> same_attr s [st] x = text_eqb a b.
Proof. intros s st x a b A B. unfold same_attr. cbn. rewrite A, B. apply orb_false_r. Qed.

Section Page.
Variable measure : string -> xnode -> list Z.
Variable document : list xnode.
Variable m : xnode.
Hypothesis M : mapped document m.
Notation styles := (children_named "Style" m).
Notation paras := (children_named "ParaShape" m).
Notation chars := (children_named "CharShape" m).
Hypothesis NF : names_fine styles.
Notation rules := (styles_css measure document ++ page_rules measure document).

Lemma para_shape_is : forall x ps, refers "parashape-id" x paras ps -> para_shape document x = [ps].
Proof. intros x ps R. apply (refers_found _ m); [exact M|listed|exact R]. Qed.
Lemma char_shape_is : forall x cs, refers "charshape-id" x chars cs -> char_shape document x = [cs].
Proof. intros x cs R. apply (refers_found _ m); [exact M|listed|exact R]. Qed.
Lemma style_is : forall x st, refers "style-id" x styles st -> style_at document (number_of "style-id" x) = [st].
Proof. intros x st R. apply (refers_found _ m); [exact M|listed|exact R]. Qed.

Lemma bullets : forall x ps, para_shape document x = [ps] ->
  exists bs, bullet_class document x = spaced bs /\ Forall (prefixed "Bullet-") bs /\ Forall word bs.
Proof.
  intros x ps P. unfold bullet_class. rewrite P. cbn [existsb]. rewrite orb_false_r. unfold compares.
  destruct (number_of "numbering-bullet-id" ps) as [n|] eqn:N; [|exists []; repeat constructor].
  destruct (0 <? n) eqn:E; [|exists []; repeat constructor].
  unfold value_of_first, value_of. unfold number_of in N. destruct (attr "numbering-bullet-id" ps) as [t|]; [|discriminate].
  destruct (number_positive t n N ltac:(lia)) as [D _].
  exists [zs "Bullet-" ++ t]. split; [cbn [spaced flat_map]; rewrite app_nil_r; reflexivity|]. split; constructor; try constructor.
  - exists t. reflexivity.
  - apply word_digits; [listed|exact D].
  - apply word_digits; [listed|exact D].
Qed.

Lemma p_words : forall p st ps ps', refers "style-id" p styles st -> refers "parashape-id" p paras ps -> refers "parashape-id" st paras ps' ->
  exists i k shape bs, nth_error styles i = Some st /\ nth_error paras k = Some ps /\ shape_part k shape /\ Forall (prefixed "Bullet-") bs /\
    words [] (paragraph_class document p) = p_classes st shape bs /\ (shape = [] -> ps = ps').
Proof.
  intros p st ps ps' Rs Rp Rp'. pose proof (style_is p st Rs) as St. pose proof Rs as (i & _ & Ni). pose proof Rp as (k & Ak & Nk). pose proof Rp' as (k' & Ak' & Nk').
  destruct (names_of m NF i st Ni) as [Id _]. apply identifier_word in Id.
  unfold paragraph_class. rewrite St. cbn [value_of_first flat_map]. rewrite (same_attr_one _ st p _ _ Ak' Ak). change (dashes (value_of "name" st)) with (style_name st).
  destruct (text_eqb (fmt_d (Z.of_nat k')) (fmt_d (Z.of_nat k))) eqn:E.
  - apply text_eqb_spec, fmt_inj in E. subst k'. destruct (bullets st ps' (para_shape_is st ps' Rp')) as (bs & Eb & Pb & Wb).
    exists i, k, [], bs. split; [exact Ni|]. split; [exact Nk|]. split; [left; reflexivity|]. split; [exact Pb|]. split; [|congruence].
    rewrite Eb, app_nil_r. apply words_spaced; assumption.
  - destruct (bullets p ps (para_shape_is p ps Rp)) as (bs & Eb & Pb & Wb).
    exists i, k, [zs "parashape-" ++ fmt_d (Z.of_nat k)], bs. split; [exact Ni|]. split; [exact Nk|]. split; [right; reflexivity|]. split; [exact Pb|]. split; [|discriminate].
    rewrite Eb. unfold value_of. rewrite Ak.
    assert (W : word (zs "parashape-" ++ fmt_d (Z.of_nat k))) by (apply word_digits; [listed|apply fmt_digits; lia]).
    unfold p_classes. rewrite <- (words_spaced (([zs "parashape-" ++ fmt_d (Z.of_nat k)]) ++ bs) (style_name st) Id).
    + reflexivity.
    + constructor; assumption.
Qed.

Lemma declared_app : forall p a b, declared p (a ++ b) = match declared p b with Some w => Some w | None => declared p a end.
Proof.
  induction a as [|[q v] a IH]; intros b; cbn [app declared]; [destruct (declared p b); reflexivity|]. rewrite IH.
  destruct (declared p b); reflexivity.
Qed.

(** A paragraph. *)
Lemma paragraph_shown : forall p st ps ps' outer prop, refers "style-id" p styles st -> attr_is "kind" "paragraph" st = true ->
  refers "parashape-id" p paras ps -> refers "parashape-id" st paras ps' ->
  cascade rules (zs "p", words [] (paragraph_class document p)) outer prop =
  first_of [declared (zs prop) (para_declarations measure ps); declared (zs prop) (para_declarations measure ps')].
Proof.
  intros p st ps ps' outer prop Rs Kd Rp Rp'. destruct (p_words p st ps ps' Rs Rp Rp') as (i & k & shape & bs & Ni & Nk & Sh & Pb & W & Eq).
  unfold cascade. rewrite chosen_filter, W. rewrite (p_rules measure document m M NF i st shape bs k ps) by assumption.
  rewrite (para_shape_is st ps' Rp'). cbn [flat_map]. rewrite app_nil_r.
  assert (H1 : matches (Plain (class (style_name st))) (zs "p", p_classes st shape bs) outer = true) by (eapply p_own_style; eassumption).
  cbn [chosen r_selector r_declarations]. rewrite H1.
  destruct Sh as [->| ->].
  - rewrite Eq by reflexivity. cbn [chosen]. destruct (declared (zs prop) (para_declarations measure ps')); reflexivity.
  - assert (H2 : matches (Plain (tag_class "p" (zs "parashape-" ++ fmt_d (Z.of_nat k)))) (zs "p", p_classes st [zs "parashape-" ++ fmt_d (Z.of_nat k)] bs) outer = true).
    { cbn [matches]. rewrite (p_shape measure m NF i st _ bs k k); [apply Nat.eqb_refl|exact Ni|right; reflexivity|exact Pb]. }
    cbn [chosen r_selector r_declarations]. rewrite H2.
    destruct (declared (zs prop) (para_declarations measure ps)), (declared (zs prop) (para_declarations measure ps')); reflexivity.
Qed.

(** A text. *)
Lemma line_only : forall p x, p <> zs "line-height" -> declared p (line_declarations measure x) = None.
Proof.
  intros p x N. unfold line_declarations, when. destruct (attr_is "linespacing-type" "ratio" x); [|reflexivity]. cbn.
  rewrite text_eqb_not; [reflexivity|exact N].
Qed.
Lemma char_no_line : forall x, declared (zs "line-height") (char_declarations x) = None.
Proof.
  intros x. unfold char_declarations, when, decoration.
  destruct (compares (Z.eqb 1) "italic" x), (compares (Z.eqb 1) "bold" x), (attr_is "underline" "underline" x), (attr_is "underline" "overline" x), (attr_is "underline" "line_through" x); reflexivity.
Qed.

Lemma t_words : forall p x st lang cs cs', refers "style-id" p styles st -> attr "lang" x = Some (zs lang) -> In lang languages_in_order ->
  refers "charshape-id" x chars cs -> refers "charshape-id" st chars cs' ->
  exists c cshape, nth_error chars c = Some cs /\ chars_part c cshape /\ words [] (text_class document p x) = t_classes lang cshape /\ (cshape = [] -> cs = cs').
Proof.
  intros p x st lang cs cs' Rs L I Rc Rc'. pose proof (style_is p st Rs) as St. pose proof Rc as (k & Ak & Nk). pose proof Rc' as (k' & Ak' & Nk').
  unfold text_class. rewrite St, (same_attr_one _ st x _ _ Ak' Ak). unfold value_of. rewrite L.
  assert (Wl : word (zs "lang-" ++ zs lang)).
  { unfold word. cbn in I. repeat (destruct I as [<-|I]; [split; [discriminate|repeat constructor]|]). contradiction. }
  destruct (text_eqb (fmt_d (Z.of_nat k')) (fmt_d (Z.of_nat k))) eqn:E.
  - apply text_eqb_spec, fmt_inj in E. subst k'. exists k, []. split; [exact Nk|]. split; [left; reflexivity|]. split; [|congruence].
    rewrite app_assoc. apply (words_spaced [] (zs "lang-" ++ zs lang) Wl). constructor.
  - exists k, [zs "charshape-" ++ fmt_d (Z.of_nat k)]. split; [exact Nk|]. split; [right; reflexivity|]. split; [|discriminate]. rewrite Ak.
    unfold t_classes. rewrite <- (words_spaced [zs "charshape-" ++ fmt_d (Z.of_nat k)] (zs "lang-" ++ zs lang) Wl).
    + f_equal. cbn [spaced flat_map]. rewrite app_nil_r, <- app_assoc. reflexivity.
    + constructor; [|constructor]. apply word_digits; [listed|apply fmt_digits; lia].
Qed.

Lemma text_shown : forall p x st ps ps' cs cs' lang base outer prop, refers "style-id" p styles st -> attr_is "kind" "paragraph" st = true ->
  refers "parashape-id" p paras ps -> refers "parashape-id" st paras ps' ->
  attr "lang" x = Some (zs lang) -> In (lang, base) (languages document) -> refers "charshape-id" x chars cs -> refers "charshape-id" st chars cs' ->
  cascade rules (zs "span", words [] (text_class document p x)) ((zs "p", words [] (paragraph_class document p)) :: outer) prop =
  first_of [declared (zs prop) (lang_declarations measure document lang base cs); declared (zs prop) (lang_declarations measure document lang base cs');
            declared (zs prop) (char_declarations cs); declared (zs prop) (char_declarations cs');
            declared (zs prop) (line_declarations measure ps); declared (zs prop) (line_declarations measure ps')].
Proof.
  intros p x st ps ps' cs cs' lang base outer prop Rs Kd Rp Rp' L Lb Rc Rc'.
  destruct (p_words p st ps ps' Rs Rp Rp') as (i & k & shape & bs & Ni & Nk & Sh & Pb & W & Eq).
  assert (I : In lang languages_in_order).
  { unfold languages in Lb. repeat (destruct Lb as [Lb|Lb]; [injection Lb as <- _; listed|]). contradiction. }
  destruct (t_words p x st lang cs cs' Rs L I Rc Rc') as (c & cshape & Nc & Cp & Wt & Eqc).
  unfold cascade. rewrite chosen_filter, W, Wt.
  rewrite (t_rules measure document m M NF i st shape bs k ps cs' c cs lang base cshape outer) by (try assumption; apply char_shape_is; assumption).
  rewrite (para_shape_is st ps' Rp'). cbn [flat_map]. rewrite app_nil_r.
  set (e := (zs "span", t_classes lang cshape)). set (o := (zs "p", p_classes st shape bs) :: outer).
  assert (H1 : matches (Child (class (style_name st)) (tag "span")) e o = true).
  { cbn [matches o]. rewrite (p_own_style m NF i st) by assumption. reflexivity. }
  assert (HL : forall s, matches (longer (and_class (zs "lang-" ++ zs lang)) s) e o = matches s e o).
  { intros s. rewrite matches_longer. unfold e at 2. cbn [snd]. pose proof (lang_in document lang base (lang, base) cshape c Lb Cp Lb) as Q. cbn [fst] in Q. rewrite Q, String.eqb_refl. apply andb_true_r. }
  assert (H2 : shape <> [] -> matches (Child (tag_class "p" (zs "parashape-" ++ fmt_d (Z.of_nat k))) (tag "span")) e o = true).
  { intros N. cbn [matches o]. rewrite (p_shape measure m NF i st _ bs k k) by assumption. rewrite Nat.eqb_refl. destruct shape; [congruence|reflexivity]. }
  assert (H3 : cshape <> [] -> matches (Plain (tag_class "span" (zs "charshape-" ++ fmt_d (Z.of_nat c)))) e o = true).
  { intros N. cbn [matches]. unfold e. rewrite (t_shape measure m lang cshape c c) by assumption. rewrite Nat.eqb_refl. destruct cshape; [congruence|reflexivity]. }
  assert (D : (declared (zs prop) (line_declarations measure ps) = None /\ declared (zs prop) (line_declarations measure ps') = None) \/
    (declared (zs prop) (lang_declarations measure document lang base cs) = None /\ declared (zs prop) (lang_declarations measure document lang base cs') = None /\
     declared (zs prop) (char_declarations cs) = None /\ declared (zs prop) (char_declarations cs') = None)).
  { destruct (list_eq_dec Z.eq_dec (zs prop) (zs "line-height")) as [->|N].
    - right. repeat split; try reflexivity; apply char_no_line.
    - left. split; apply line_only; exact N. }
  unfold text_rules. cbn [app chosen r_selector r_declarations]. rewrite HL, H1.
  destruct Sh as [->| ->]; destruct Cp as [->| ->].
  - rewrite Eq, Eqc by reflexivity. rewrite Eq, Eqc in D by reflexivity. cbn [app chosen].
    destruct (declared (zs prop) (lang_declarations measure document lang base cs')), (declared (zs prop) (char_declarations cs')), (declared (zs prop) (line_declarations measure ps'));
      reflexivity.
  - rewrite Eq by reflexivity. rewrite Eq in D by reflexivity. cbn [app chosen r_selector r_declarations]. rewrite HL, H3 by discriminate.
    destruct (declared (zs prop) (lang_declarations measure document lang base cs)), (declared (zs prop) (char_declarations cs)),
      (declared (zs prop) (lang_declarations measure document lang base cs')), (declared (zs prop) (char_declarations cs')), (declared (zs prop) (line_declarations measure ps'));
      try reflexivity; exfalso; intuition congruence.
  - rewrite Eqc by reflexivity. rewrite Eqc in D by reflexivity. cbn [app chosen r_selector r_declarations]. rewrite H2 by discriminate.
    destruct (declared (zs prop) (lang_declarations measure document lang base cs')), (declared (zs prop) (char_declarations cs')),
      (declared (zs prop) (line_declarations measure ps)), (declared (zs prop) (line_declarations measure ps'));
      try reflexivity; exfalso; intuition congruence.
  - cbn [app chosen r_selector r_declarations]. rewrite HL, H2, H3 by discriminate.
    destruct (declared (zs prop) (lang_declarations measure document lang base cs)), (declared (zs prop) (char_declarations cs)),
      (declared (zs prop) (lang_declarations measure document lang base cs')), (declared (zs prop) (char_declarations cs')),
      (declared (zs prop) (line_declarations measure ps)), (declared (zs prop) (line_declarations measure ps'));
      try reflexivity; exfalso; intuition congruence.
Qed.
End Page.
