(** Proofs about the texts of hwp5odt: paragraphs and texts. *)
From Coq Require Import ZArith String List Bool Lia.
From Verif Require Import Base Model_Text Model_XmlText Model_Plaintext Model_Html Spec_Text Spec_Html Proof_Html Proof_Html2 Proof_Html3 Model_Opendoc Spec_Opendoc Proof_Opendoc.
Import ListNotations.
Open Scope string_scope.
Open Scope list_scope.
Open Scope Z_scope.

Lemma lookup_app : forall {V} s (l l' : list (list Z * V)), lookup s (l ++ l') = match lookup s l with Some v => Some v | None => lookup s l' end.
Proof. intros V s l l'. induction l as [|[k v] r IH]; [reflexivity|]. cbn [app lookup]. destruct (list_eq_dec Z.eq_dec s k); [reflexivity|exact IH]. Qed.
Lemma children_text : forall l, children_named "style:paragraph-properties" (elem "style:style" [] l) = filter (named_node "style:paragraph-properties") l.
Proof. reflexivity. Qed.

Lemma effective_step : forall n l family name kind prop s, styles_named family name l = [s] -> effective (S n) l family name kind prop =
  match says_itself s kind prop, attr "style:parent-style-name" s with
  | Some v, _ => Some v
  | None, Some q => effective n l family q kind prop
  | None, None => None
  end.
Proof. intros n l family name kind prop s E. cbn [effective]. rewrite E. reflexivity. Qed.

Lemma written_is : forall k, written k = existsb (fun s => named_node s k) in_line_names.
Proof. intros k. unfold written, in_line_names. cbn [existsb]. rewrite orb_false_r, !orb_assoc. reflexivity. Qed.
Lemma filter_twice : forall {A} (f g : A -> bool) l, (forall x, f x = true -> g x = true) -> filter f (filter g l) = filter f l.
Proof.
  intros A f g l H. induction l as [|x r IH]; [reflexivity|]. cbn [filter]. destruct (g x) eqn:G; cbn [filter]; [rewrite IH; reflexivity|].
  destruct (f x) eqn:F; [rewrite (H x F) in G; discriminate|exact IH].
Qed.
Lemma nth_all : forall {A} (f : A -> bool) l j x, nth_error l j = Some x -> Forall (fun k => f k = true) (firstn (S j) l) -> nth_error (filter f l) j = Some x.
Proof.
  intros A f l. induction l as [|y r IH]; intros [|j] x N F; try discriminate.
  - cbn [firstn] in F. inversion F as [|? ? Fy _]; subst. cbn [filter]. rewrite Fy. exact N.
  - cbn [firstn] in F. inversion F as [|? ? Fy Fr]; subst. cbn [filter]. rewrite Fy. cbn [nth_error]. apply IH; [exact N|exact Fr].
Qed.
Lemma after_texts_place : forall l x j, after_texts l x j -> nth_error (filter (named_node "Text") (kids_of_node l)) j = Some x.
Proof.
  intros l x j [N F]. unfold in_line_of in *. rewrite <- (filter_twice (named_node "Text") (fun k => existsb (fun s => named_node s k) in_line_names)).
  - apply nth_all; assumption.
  - intros k K. unfold in_line_names. cbn [existsb]. rewrite K. reflexivity.
Qed.
Lemma filter_ext_in_line : forall l, filter written l = filter (fun k => existsb (fun s => named_node s k) in_line_names) l.
Proof. intros l. apply filter_ext. exact written_is. Qed.

Section Written.
  Variable measure : string -> xnode -> list Z.
  Variable geometry : list xnode -> list attribute.
  Variable document : list xnode.
  Variables m d b : xnode.
  Hypothesis T : one_text document m d b.
  Notation styles := (file_styles (content_xml measure geometry document) (styles_xml measure document)).

  Lemma styles_are : styles = all_styles measure document d b.
  Proof.
    unfold file_styles, content_xml, styles_xml, all_styles. rewrite (ot_document _ _ _ _ T). cbn [flat_map map]. rewrite (ot_body _ _ _ _ T). cbn [map app flat_map].
    cbn [children_named elem filter]. repeat match goal with |- context [name_is ?s (zs ?t)] => change (name_is s (zs t)) with (if string_dec s t then true else false) end.
    cbn [string_dec]. cbn. rewrite !app_nil_r. reflexivity.
  Qed.
  Lemma id_mapping_is : forall s n, id_mapping document s n = nth_child s n (kids_of_node m).
  Proof. intros s n. unfold id_mapping. rewrite (md_path _ _ (ot_mapped _ _ _ _ T)). cbn [flat_map]. apply app_nil_r. Qed.
  Lemma mapping_found : forall s a x y, refers a x (children_named s m) y -> id_mapping document s (plus_one (number_of a x)) = [y].
  Proof.
    intros s a x y (k & A & N). rewrite id_mapping_is. unfold number_of. rewrite A, number_fmt. cbn [plus_one option_map]. apply nth_child_is. exact N.
  Qed.
  Lemma mapping_found1 : forall s a x y, refers1 a x (children_named s m) y -> id_mapping document s (number_of a x) = [y].
  Proof.
    intros s a x y (k & A & N). rewrite id_mapping_is. unfold number_of. rewrite A, number_fmt. rewrite Nat2Z.inj_succ. unfold Z.succ. apply nth_child_is. exact N.
  Qed.

  Lemma write_paragraph : forall up x, named_node "Paragraph" x = true -> exists rest, write geometry document up x =
    elem "text:p" [put "text:style-name" (paragraph_style_name document x)]
      (counted (named_node "LineSeg") (fun i l => counted written (fun j k => if named_node "Text" k then [span document x i j k] else write geometry document (l :: x :: up) k) 1 (kids_of_node l)) 1 (kids_of_node x)) :: rest.
  Proof.
    intros up [n a kids|t] N; [|discriminate]. cbn [named_node] in N. eexists. cbn [write]. rewrite N. cbv iota. f_equal. unfold elem. f_equal. cbn [kids_of_node]. apply counted_same.
    intros i [ln la lk|t]; reflexivity.
  Qed.

  (** Which styles there are. *)
  Lemma style_in : forall st, In st (children_named "Style" m) -> In (style_of_style measure document st) (all_styles measure document d b).
  Proof. intros st I. unfold all_styles. rewrite (common_styles_are measure document m d b T). apply in_or_app. right. apply in_or_app. right. apply in_map. exact I. Qed.
  Lemma paragraph_path : forall s x, In x (nodes_named_in s document) -> exists path, In path (everywhere document s) /\ self path = x.
  Proof. intros s x I. rewrite <- everywhere_nodes in I. apply in_map_iff in I as (path & E & I). exists path. split; assumption. Qed.
  Lemma paragraph_style_in : forall path s, In path (everywhere document "Paragraph") -> In s (styles_of_paragraph measure document path) -> In s (all_styles measure document d b).
  Proof. intros path s I J. unfold all_styles, automatic_styles. apply in_or_app. left. apply in_or_app. left. apply in_flat_map. exists path. split; assumption. Qed.

  Lemma named_is : forall x s, In x (nodes_named_in s document) -> named_node s x = true.
  Proof. intros x s I. apply filter_In in I as [_ I]. exact I. Qed.

  (** What the style of a style says. *)
  Lemma effective_style : forall n st kind prop, In st (children_named "Style" m) ->
    effective (S n) styles "paragraph" (local_style_name st) kind prop = says_itself (style_of_style measure document st) kind prop.
  Proof.
    intros n st kind prop I. rewrite styles_are. cbn [effective].
    rewrite (style_alone measure document m d b T "paragraph" (local_style_name st) _ (style_in st I) (key_of_style measure document st)).
    destruct (says_itself _ kind prop); reflexivity.
  Qed.
  Lemma not_paragraph_kind : forall l, filter (named_node "style:paragraph-properties") (map (text_properties measure document) l) = [].
  Proof. intros l. apply filter_none. intros x I. apply in_map_iff in I as (y & <- & _). reflexivity. Qed.
  Lemma style_says_paragraph : forall st ps prop, refers "parashape-id" st (children_named "ParaShape" m) ps ->
    says_itself (style_of_style measure document st) "style:paragraph-properties" prop = lookup (zs prop) (para_attributes measure ps).
  Proof.
    intros st ps prop R. unfold says_itself, style_of_style. rewrite (mapping_found _ _ _ _ R). cbn [flat_map]. rewrite app_nil_r.
    change (first_of (map (attr prop) (elem "style:paragraph-properties" (para_attributes measure ps) [] :: filter (named_node "style:paragraph-properties")
      (map (text_properties measure document) (id_mapping document "CharShape" (plus_one (number_of "charshape-id" st)))))) = lookup (zs prop) (para_attributes measure ps)).
    rewrite not_paragraph_kind. cbn [map first_of attr elem]. destruct (lookup _ _); reflexivity.
  Qed.
  Lemma style_says_text : forall st cs prop, refers "charshape-id" st (children_named "CharShape" m) cs ->
    says_itself (style_of_style measure document st) "style:text-properties" prop = attr prop (text_properties measure document cs).
  Proof.
    intros st cs prop R. unfold says_itself, style_of_style. rewrite (mapping_found _ _ _ _ R).
    change (first_of [attr prop (text_properties measure document cs)] = attr prop (text_properties measure document cs)).
    cbn [first_of]. destruct (attr _ _); reflexivity.
  Qed.

  Section OfParagraph.
    Variables p st ps ps' : xnode.
    Hypothesis Ip : In p (nodes_named_in "Paragraph" document).
    Hypothesis Rs : refers "style-id" p (children_named "Style" m) st.
    Lemma style_here : In st (children_named "Style" m).
    Proof. destruct Rs as (k & _ & N). eapply nth_error_In. exact N. Qed.
    Definition own : bool := own_style [st] p.
    Lemma name_here : paragraph_style_name document p = if own then zs "Paragraph-" ++ paragraph_number p else local_style_name st.
    Proof.
      unfold paragraph_style_name. rewrite (mapping_found _ _ _ _ Rs). fold own. destruct own; [reflexivity|]. cbn [flat_map]. rewrite app_nil_r. apply style_name_is.
    Qed.
    Lemma own_here : own = true -> exists s, styles_named "paragraph" (zs "Paragraph-" ++ paragraph_number p) styles = [s] /\
      attr "style:parent-style-name" s = Some (local_style_name st) /\
      kids_of_node s = [elem "style:paragraph-properties" (flat_map (para_attributes measure) (anywhere "ParaShape" (plus_one (number_of "parashape-id" p)) document) ++
        when_attr (attr_is "new-page" "1" p) [puts "fo:break-before" "page"]) []].
    Proof.
      intros O. destruct (paragraph_path "Paragraph" p Ip) as (path & I & E).
      pose proof (refers_found document m "Style" "style-id" p st (ot_mapped _ _ _ _ T) ltac:(cbn; auto) Rs) as F.
      destruct (style_of_paragraph measure document path) as [|s r] eqn:W; [unfold style_of_paragraph in W; rewrite E, F in W; fold own in W; rewrite O in W; discriminate|].
      exists s. rewrite styles_are. split.
      - apply (style_alone measure document m d b T).
        + apply (paragraph_style_in path); [exact I|]. unfold styles_of_paragraph. rewrite W. left. reflexivity.
        + unfold style_of_paragraph in W. rewrite E, F in W. fold own in W. rewrite O in W. injection W as <- <-. reflexivity.
      - unfold style_of_paragraph in W. rewrite E, F in W. fold own in W. rewrite O in W. injection W as <- <-. split; [|reflexivity].
        rewrite <- style_name_is. reflexivity.
    Qed.
    Lemma paragraph_text_style : forall prop, effective 2 styles "paragraph" (paragraph_style_name document p) "style:text-properties" prop =
      says_itself (style_of_style measure document st) "style:text-properties" prop.
    Proof.
      intros prop. rewrite name_here. destruct own eqn:O; [|apply effective_style, style_here]. destruct (own_here O) as (s & F & P & K).
      rewrite (effective_step _ _ _ _ _ _ s F). unfold says_itself at 1. rewrite children_filter, K. change (filter _ _) with (@nil xnode). cbn [map first_of]. rewrite P.
      apply effective_style, style_here.
    Qed.
    Hypothesis Rp : refers "parashape-id" p (children_named "ParaShape" m) ps.
    Hypothesis Rp' : refers "parashape-id" st (children_named "ParaShape" m) ps'.
    Lemma own_iff : own = false -> ps = ps' /\ attr_is "new-page" "1" p = false.
    Proof.
      destruct Rp as (k & A & N). destruct Rp' as (k' & A' & N'). unfold own, own_style, first_plus_one, number_of. rewrite A, A', !number_fmt. cbn [plus_one option_map differ].
      intros O. apply orb_false_iff in O as [O1 O2]. split; [|exact O2]. apply negb_false_iff in O1. assert (k = k') by lia. subst k'. rewrite N in N'. injection N' as <-. reflexivity.
    Qed.
    Lemma paragraph_says : forall prop, effective 2 styles "paragraph" (paragraph_style_name document p) "style:paragraph-properties" prop =
      first_of [lookup (zs prop) (para_attributes measure ps); if attr_is "new-page" "1" p then lookup (zs prop) [puts "fo:break-before" "page"] else None;
                lookup (zs prop) (para_attributes measure ps')].
    Proof.
      intros prop. rewrite name_here. destruct own eqn:O.
      - destruct (own_here O) as (s & F & P & K). rewrite (effective_step _ _ _ _ _ _ s F). unfold says_itself at 1. rewrite children_filter, K.
        rewrite (refers_found document m "ParaShape" "parashape-id" p ps (ot_mapped _ _ _ _ T) ltac:(cbn; auto) Rp). cbn [flat_map]. rewrite app_nil_r.
        unfold elem. cbn [filter named_node]. change (name_is "style:paragraph-properties" (zs "style:paragraph-properties")) with true. cbv iota. cbn [map first_of attr]. rewrite lookup_app, P.
        destruct (lookup (zs prop) (para_attributes measure ps)); [reflexivity|].
        destruct (attr_is "new-page" "1" p).
        + unfold when_attr. destruct (lookup (zs prop) [puts "fo:break-before" "page"]); [reflexivity|]. etransitivity; [apply effective_style, style_here|].
          rewrite (style_says_paragraph st ps' prop Rp'). destruct (lookup _ _); reflexivity.
        + etransitivity; [apply effective_style, style_here|]. rewrite (style_says_paragraph st ps' prop Rp'). destruct (lookup _ _); reflexivity.
      - destruct (own_iff O) as [<- ->]. etransitivity; [apply effective_style, style_here|]. rewrite (style_says_paragraph st ps prop Rp'). cbn [first_of]. destruct (lookup _ _); reflexivity.
    Qed.

    (** Texts. *)
    Section OfText.
      Variables l x cs cs' : xnode.
      Variables i j : nat.
      Hypothesis Nl : nth_error (children_named "LineSeg" p) i = Some l.
      Hypothesis A : after_texts l x j.
      Hypothesis Rc : refers "charshape-id" x (children_named "CharShape" m) cs.
      Hypothesis Rc' : refers "charshape-id" st (children_named "CharShape" m) cs'.
      Notation line := (1 + Z.of_nat i).
      Notation place := (1 + Z.of_nat j).
      Lemma text_here : named_node "Text" x = true.
      Proof.
        destruct A as [N F]. rewrite Forall_forall in F. apply F. apply (nth_error_In _ j). rewrite <- N. clear. generalize (in_line_of l). intros q. revert j.
        induction q as [|y q IH]; intros [|j]; try reflexivity. cbn [firstn nth_error]. apply IH.
      Qed.
      Lemma span_written : forall up, exists y rest, write geometry document up p = y :: rest /\ y = elem "text:p" [put "text:style-name" (paragraph_style_name document p)] (kids_of_node y) /\
        In (span document p line place x) (kids_of_node y).
      Proof.
        intros up. destruct (write_paragraph up p (named_is p "Paragraph" Ip)) as (rest & E). eexists _, rest. split; [exact E|]. split; [reflexivity|]. cbn [kids_of_node elem].
        apply in_counted. exists i, l. split; [rewrite <- children_filter; exact Nl|]. apply in_counted. exists j, x. split; [rewrite filter_ext_in_line; apply A|].
        rewrite text_here. left. reflexivity.
      Qed.
      Definition own_text : bool := differ (first_plus_one "charshape-id" [st]) (plus_one (number_of "charshape-id" x)).
      Lemma span_is : span document p line place x = elem "text:span" (if own_text then [put "text:style-name" (text_style_name p line place)] else []) (characters (first_text (kids_of_node x))).
      Proof. unfold span. rewrite (mapping_found _ _ _ _ Rs). reflexivity. Qed.
      Lemma own_text_here : own_text = true -> exists s, styles_named "text" (text_style_name p line place) styles = [s] /\ attr "style:parent-style-name" s = None /\
        kids_of_node s = [text_properties measure document cs].
      Proof.
        intros O. destruct (paragraph_path "Paragraph" p Ip) as (path & I & E).
        pose proof (refers_found document m "Style" "style-id" p st (ot_mapped _ _ _ _ T) ltac:(cbn; auto) Rs) as F.
        exists (elem "style:style" [puts "style:family" "text"; put "style:name" (text_style_name p line place)] [text_properties measure document cs]).
        split; [|split; reflexivity]. rewrite styles_are. apply (style_alone measure document m d b T); [|reflexivity].
        apply (paragraph_style_in path); [exact I|]. unfold styles_of_paragraph. rewrite E, F. apply in_or_app. right.
        apply in_counted. exists i, l. split; [rewrite <- children_filter; exact Nl|]. apply in_counted. exists j, x. split; [apply after_texts_place; exact A|].
        unfold style_of_text. fold own_text. rewrite O. rewrite (refers_found document m "CharShape" "charshape-id" x cs (ot_mapped _ _ _ _ T) ltac:(cbn; auto) Rc). left. reflexivity.
      Qed.
      Lemma own_text_iff : own_text = false -> cs = cs'.
      Proof.
        destruct Rc as (k & B & N). destruct Rc' as (k' & B' & N'). unfold own_text, first_plus_one, number_of. rewrite B, B', !number_fmt. cbn [plus_one option_map differ].
        intros O. apply negb_false_iff in O. assert (k = k') by lia. subst k'. rewrite N in N'. injection N' as <-. reflexivity.
      Qed.
      Lemma text_says : forall y prop, attr "text:style-name" y = Some (paragraph_style_name document p) -> text_property styles y (span document p line place x) prop =
        first_of [attr prop (text_properties measure document cs); attr prop (text_properties measure document cs')].
      Proof.
        intros y prop Y. unfold text_property, value_of. rewrite Y, paragraph_text_style, (style_says_text st cs' prop Rc'), span_is. destruct own_text eqn:O.
        - destruct (own_text_here O) as (s & F & P & K). change (attr "text:style-name" (elem "text:span" [put "text:style-name" (text_style_name p line place)] _)) with (Some (text_style_name p line place)).
          cbv iota beta. rewrite (effective_step _ _ _ _ _ _ s F). unfold says_itself. rewrite children_filter, K. change (filter _ _) with [text_properties measure document cs]. rewrite P. cbn [map first_of].
          destruct (attr prop (text_properties measure document cs)); reflexivity.
        - rewrite (own_text_iff O). cbn [first_of attr elem lookup]. destruct (attr prop (text_properties measure document cs')); reflexivity.
      Qed.
      Lemma text_written : forall up, exists y rest z, write geometry document up p = y :: rest /\ In z (kids_of_node y) /\ named_node "text:span" z = true /\
        opendoc_text z = first_text (kids_of_node x) /\
        forall prop, text_property styles y z prop = first_of [attr prop (text_properties measure document cs); attr prop (text_properties measure document cs')].
      Proof.
        intros up. destruct (span_written up) as (y & rest & E & Y & I). exists y, rest, (span document p line place x). split; [exact E|]. split; [exact I|]. split; [reflexivity|]. split.
        - unfold span. cbn [opendoc_text elem]. change (name_is "text:p" (zs "text:span")) with false. cbv iota. rewrite app_nil_r. destruct (first_text (kids_of_node x)) as [|c t]; [reflexivity|].
          cbn. rewrite app_nil_r. reflexivity.
        - intros prop. apply text_says. rewrite Y. reflexivity.
      Qed.
    End OfText.
  End OfParagraph.
End Written.
