(** What is shown of a text is written in content.xml. *)
From Coq Require Import ZArith String List Bool Lia.
From Verif Require Import Base Model_Text Model_XmlText Model_Plaintext Model_Html Spec_Text Spec_Html Proof_Html Proof_Html3 Model_Opendoc Spec_Opendoc Proof_Opendoc Proof_Opendoc2 Proof_Opendoc3 Proof_Opendoc4 Proof_Opendoc5.
Import ListNotations.
Open Scope string_scope.
Open Scope list_scope.
Open Scope Z_scope.

Lemma parts_self : forall x, In x (parts x).
Proof. intros [n a k|t]; left; reflexivity. Qed.
Lemma parts_trans : forall x y z, In y (parts x) -> In z (parts y) -> In z (parts x).
Proof.
  fix F 1. intros [n a kids|t] y z; cbn [parts].
  - intros [<-|Iy] Iz; [exact Iz|]. right. revert Iy. induction kids as [|k r IH]; [contradiction|]. cbn [flat_map]. rewrite !in_app_iff. intros [Iy|Iy].
    + left. exact (F k y z Iy Iz).
    + right. exact (IH Iy).
  - intros [<-|[]] Iz. exact Iz.
Qed.
Lemma all_parts_trans : forall l y z, In y (flat_map parts l) -> In z (parts y) -> In z (flat_map parts l).
Proof. intros l y z Iy Iz. apply in_flat_map in Iy as (x & Ix & Iy). apply in_flat_map. exists x. split; [exact Ix|]. exact (parts_trans x y z Iy Iz). Qed.
Lemma parts_kid : forall y k, In k (kids_of_node y) -> In k (parts y).
Proof. intros [n a kids|t] k I; [|contradiction]. right. apply in_flat_map. exists k. split; [exact I|apply parts_self]. Qed.
Lemma kids_in : forall l n a kids, In (Element n a kids) (flat_map parts l) -> incl kids (flat_map parts l).
Proof. intros l n a kids I k Ik. apply (all_parts_trans l _ k I). apply parts_kid. exact Ik. Qed.
Lemma counted_incl : forall {A} choose (f : Z -> xnode -> list A) x l n, In x l -> choose x = true -> exists k, incl (f k x) (counted choose f n l).
Proof.
  intros A choose f x. induction l as [|y r IH]; intros n I C; [contradiction|]. cbn [counted]. destruct I as [<-|I].
  - rewrite C. exists n. apply incl_appl, incl_refl.
  - destruct (choose y).
    + destruct (IH (n + 1) I C) as (k & H). exists k. apply incl_appr. exact H.
    + exact (IH n I C).
Qed.
Lemma counted_length : forall {A} choose (g : Z -> xnode -> A) l n, List.length (counted choose (fun k x => [g k x]) n l) = List.length (filter choose l).
Proof. intros A choose g. induction l as [|x r IH]; intros n; [reflexivity|]. cbn [counted filter]. destruct (choose x); [cbn [app List.length]; rewrite IH; reflexivity|apply IH]. Qed.
Lemma flat_map_ext_in : forall {A B} (f g : A -> list B) l, (forall x, In x l -> f x = g x) -> flat_map f l = flat_map g l.
Proof. intros A B f g l H. rewrite !flat_map_concat_map. f_equal. apply map_ext_in. exact H. Qed.
Lemma flat_map_incl : forall {A B} (f : A -> list B) x l, In x l -> incl (f x) (flat_map f l).
Proof. intros A B f x l I y Iy. apply in_flat_map. exists x. split; assumption. Qed.
Lemma named_elem : forall s x, named_node s x = true -> exists a k, x = Element (zs s) a k.
Proof. intros s [n a k|t] N; [|discriminate]. exists a, k. f_equal. apply name_is_spec. exact N. Qed.
Lemma in_named : forall s x k, In k (children_named s x) -> exists a l, k = Element (zs s) a l /\ In k (kids_of_node x).
Proof. intros s x k I. destruct (in_children s x k I) as [K N]. destruct (named_elem s k N) as (a & l & ->). exists a, l. split; [reflexivity|exact K]. Qed.

Section Flow.
  Variable geometry : list xnode -> list attribute.
  Variable document : list xnode.
  Variables d b : xnode.
  Notation W := (write geometry document).
  Notation P := (flat_map parts (office_text geometry document d b)).

  Lemma in_elem : forall up n a kids l, incl (W up l) P -> In (Element n a kids) (W up l) -> incl kids P.
  Proof. intros up n a kids l H I. apply (kids_in _ n a kids). apply H. exact I. Qed.

  Lemma shown_written : forall x, shown b x -> exists up, incl (W up x) P.
  Proof.
    induction 1 as [s k Is Ik|c k _ [up IH] N Ik|p l k _ [up IH] N Il Ik C|x t r c k _ [up IH] N It Ir Ic Ik|x k _ [up IH] N Ik|x k _ [up IH] N K Ik|x l k _ [up IH] N K Il Ik|x l k _ [up IH] N Il Ik].
    - destruct (in_named _ _ _ Is) as (a & kids & -> & _). exists [Element (zs "SectionDef") a kids; b; d]. intros y Iy.
      apply in_flat_map. exists y. split; [|apply parts_self]. right. apply in_flat_map. exists (Element (zs "SectionDef") a kids). split; [exact Is|].
      cbn -[zs]. exact (flat_map_incl (W _) k kids Ik y Iy).
    - destruct (named_elem _ _ N) as (a & kids & ->). exists (Element (zs "ColumnSet") a kids :: up). intros y Iy. apply IH. cbn -[zs]. exact (flat_map_incl (W _) k kids Ik y Iy).
    - destruct (named_elem _ _ N) as (a & kids & ->). destruct (in_named _ _ _ Il) as (la & lk & -> & Jl). cbn [kids_of_node] in *. exists (Element (zs "LineSeg") la lk :: Element (zs "Paragraph") a kids :: up).
      destruct (named_node "TableControl" k) eqn:Nt.
      + intros y Iy. apply IH. cbn [write]. rewrite (proj2 (name_is_spec "Paragraph" _) eq_refl). right. apply in_flat_map. exists (Element (zs "LineSeg") la lk). split; [exact Jl|].
        rewrite (proj2 (name_is_spec "LineSeg" _) eq_refl). apply in_flat_map. exists k. split; [exact Ik|]. rewrite Nt. exact Iy.
      + assert (Wk : written k = true) by (unfold written; cbn [existsb] in C; rewrite Nt in C; destruct (named_node "GShapeObjectControl" k), (named_node "FootNote" k), (named_node "EndNote" k), (named_node "Text" k); try reflexivity; discriminate).
        assert (Nx : named_node "Text" k = false).
        { destruct (named_node "Text" k) eqn:Nx; [|reflexivity]. destruct (named_elem _ _ Nx) as (ka & kk & ->). discriminate C. }
        cbn [write] in IH. rewrite (proj2 (name_is_spec "Paragraph" _) eq_refl) in IH. apply incl_cons_inv in IH as [IH _]. apply kids_in in IH. intros y Iy. apply IH. clear IH.
        match goal with |- In y (counted ?ch ?f ?n ?l) => destruct (counted_incl ch f (Element (zs "LineSeg") la lk) l n Jl) as (line & H); [reflexivity|] end.
        apply H. clear H. match goal with |- In y (counted ?ch ?f ?n ?l) => destruct (counted_incl ch f k l n Ik Wk) as (text & H) end.
        apply H. rewrite Nx. exact Iy.
    - destruct (in_named _ _ _ It) as (ta & tk & -> & _). destruct (in_named _ _ _ Ir) as (ra & rk & -> & Jr). destruct (in_named _ _ _ Ic) as (ca & ck & -> & Jc). cbn [kids_of_node] in *.
      rewrite write_table in IH by exact N. apply incl_cons_inv in IH as [IH _]. apply kids_in in IH. apply incl_cons_inv in IH as [_ IH].
      set (t := Element (zs "TableBody") ta tk) in *. set (r := Element (zs "TableRow") ra rk) in *. set (c := Element (zs "TableCell") ca ck) in *. exists (c :: r :: t :: x :: up).
      assert (H : exists row, In (row_of geometry document up x t row r) P).
      { destruct (counted_incl (named_node "TableRow") (fun row r => [row_of geometry document up x t row r]) r tk 1 Jr eq_refl) as (row & H). exists row. apply IH.
        apply in_flat_map. exists t. split; [exact It|]. apply H. left. reflexivity. }
      destruct H as (row & H). apply kids_in in H. destruct (counted_incl (named_node "TableCell") (fun column c => [cell_of geometry document up x t r row column c]) c rk 1 Jc eq_refl) as (column & G).
      assert (Q : In (cell_of geometry document up x t r row column c) P) by (apply H, G; left; reflexivity).
      apply kids_in in Q. intros y Iy. apply Q. exact (flat_map_incl (W _) k ck Ik y Iy).
    - destruct (in_named _ _ _ Ik) as (ka & kk & -> & Jk). destruct (named_elem _ _ N) as (a & kids & ->). exists (Element (zs "GShapeObjectControl") a kids :: up). intros y Iy. apply IH.
      cbn -[zs]. apply in_flat_map. exists (Element (zs "ShapeComponent") ka kk). split; [exact Jk|]. exact Iy.
    - destruct (in_named _ _ _ Ik) as (ka & kk & -> & Jk). destruct (named_elem _ _ N) as (a & kids & ->). set (X := Element (zs "ShapeComponent") a kids) in *. exists (X :: up).
      assert (K' : attr_is "chid" "$con" X = true) by (apply attr_is_spec; exact K).
      assert (E : exists attrs, W up X = [elem "draw:g" attrs (flat_map (fun k => if named_node "ShapeComponent" k then W (X :: up) k else []) kids)]).
      { unfold X at 2. cbn -[zs attr_is]. fold X. rewrite K'. eexists. reflexivity. }
      destruct E as (attrs & E). rewrite E in IH. apply incl_cons_inv in IH as [IH _]. apply kids_in in IH. intros y Iy. apply IH.
      apply in_flat_map. exists (Element (zs "ShapeComponent") ka kk). split; [exact Jk|]. exact Iy.
    - destruct (in_named _ _ _ Il) as (la & lk & -> & Jl). destruct (named_elem _ _ N) as (a & kids & ->). set (X := Element (zs "ShapeComponent") a kids) in *. exists (Element (zs "TextboxParagraphList") la lk :: X :: up).
      assert (K' : attr_is "chid" "$rec" X = true) by (apply attr_is_spec; exact K).
      assert (K1 : attr_is "chid" "$con" X = false) by (rewrite (attr_is_other _ _ _ _ K); reflexivity).
      assert (K2 : attr_is "chid" "$pic" X = false) by (rewrite (attr_is_other _ _ _ _ K); reflexivity).
      assert (E : exists attrs, W up X = [elem "draw:rect" attrs (flat_map (fun l => match l with
                | Element ln _ lk => if name_is "TextboxParagraphList" ln then flat_map (W (l :: X :: up)) lk else []
                | Characters _ => []
                end) kids)]).
      { unfold X at 2. cbn -[zs attr_is]. fold X. rewrite K', K1, K2. eexists. reflexivity. }
      destruct E as (attrs & E). rewrite E in IH. apply incl_cons_inv in IH as [IH _]. apply kids_in in IH. intros y Iy. apply IH.
      apply in_flat_map. exists (Element (zs "TextboxParagraphList") la lk). split; [exact Jl|]. rewrite (proj2 (name_is_spec "TextboxParagraphList" _) eq_refl). exact (flat_map_incl (W _) k lk Ik y Iy).
    - destruct (in_named _ _ _ Il) as (la & lk & -> & Jl). destruct (in_named _ _ _ Ik) as (ka & kk & -> & Jk). cbn [kids_of_node] in Jk. exists (Element (zs "ListHeader") la lk :: x :: up).
      assert (E : exists e c attrs, W up x = [elem e attrs [c; elem "text:note-body" [] (flat_map (fun l => match l with
                   | Element ln _ lk => if name_is "ListHeader" ln then flat_map (fun k => if named_node "Paragraph" k then W (l :: x :: up) k else []) lk else []
                   | Characters _ => []
                   end) (kids_of_node x))]]).
      { destruct (named_node "FootNote" x) eqn:F; [destruct (named_elem _ _ F) as (a & kids & ->)|destruct (named_elem _ _ N) as (a & kids & ->)]; cbn -[zs]; do 3 eexists; reflexivity. }
      destruct E as (e & c & attrs & E). rewrite E in IH. apply incl_cons_inv in IH as [IH _]. apply kids_in in IH. apply incl_cons_inv in IH as [_ IH]. apply incl_cons_inv in IH as [IH _]. apply kids_in in IH.
      intros y Iy. apply IH. apply in_flat_map. exists (Element (zs "ListHeader") la lk). split; [exact Jl|]. rewrite (proj2 (name_is_spec "ListHeader" _) eq_refl).
      apply in_flat_map. exists (Element (zs "Paragraph") ka kk). split; [exact Jk|exact Iy].
  Qed.
End Flow.

Lemma shown_below : forall b x, shown b x -> exists s k, In s (children_named "SectionDef" b) /\ In k (kids_of_node s) /\ In x (map self (below [] k)).
Proof.
  intros b x H.
  assert (step : forall y z, (exists s k, In s (children_named "SectionDef" b) /\ In k (kids_of_node s) /\ In y (map self (below [] k))) -> In z (kids_of_node y) ->
            exists s k, In s (children_named "SectionDef" b) /\ In k (kids_of_node s) /\ In z (map self (below [] k))).
  { intros y z (s & k & Is & Ik & Iy) Iz. exists s, k. split; [exact Is|]. split; [exact Ik|]. exact (below_trans k y z Iy (below_of_kid y z Iz)). }
  induction H as [s k Is Ik|c k _ IH N Ik|p l k _ IH N Il Ik C|x t r c k _ IH N It Ir Ic Ik|x k _ IH N Ik|x k _ IH N K Ik|x l k _ IH N K Il Ik|x l k _ IH N Il Ik];
    repeat match goal with I : In _ (children_named _ _) |- _ => lazymatch type of I with In ?y (children_named "SectionDef" b) => fail | _ => apply in_children in I as [I _] end end.
  - exists s, k. split; [exact Is|]. split; [exact Ik|]. apply below_self.
  - exact (step c k IH Ik).
  - exact (step l k (step p l IH Il) Ik).
  - exact (step c k (step r c (step t r (step x t IH It) Ir) Ic) Ik).
  - exact (step x k IH Ik).
  - exact (step x k IH Ik).
  - exact (step l k (step x l IH Il) Ik).
  - exact (step l k (step x l IH Il) Ik).
Qed.

Section Shown.
  Variable measure : string -> xnode -> list Z.
  Variable geometry : list xnode -> list attribute.
  Variable document : list xnode.
  Variables m d b : xnode.
  Hypothesis T : one_text document m d b.

  Lemma shown_in_text : forall s x, shown b x -> named_node s x = true -> In x (in_text s b).
  Proof. intros s x H N. destruct (shown_below b x H) as (sec & k & Is & Ik & Ix). exact (in_text_of b s sec k x Is Ik Ix N). Qed.
  Lemma shown_in_document : forall s x, shown b x -> named_node s x = true -> In x (nodes_named_in s document).
  Proof. intros s x H N. exact (text_in_document document m d b T s x (shown_in_text s x H N)). Qed.
  Lemma shown_in_file : forall x, shown b x -> exists up, incl (write geometry document up x) (flat_map parts (file_text (content_xml measure geometry document))).
  Proof. intros x H. rewrite (file_text_is measure geometry document m d b T). exact (shown_written geometry document d b x H). Qed.
End Shown.

(** ** The order *)
Lemma page_app : forall s l l', page_elements s (l ++ l') = page_elements s l ++ page_elements s l'.
Proof. intros s l l'. unfold page_elements. rewrite flat_map_app, filter_app. reflexivity. Qed.
Lemma page_flat : forall {A} s (f : A -> list xnode) l, page_elements s (flat_map f l) = flat_map (fun x => page_elements s (f x)) l.
Proof. intros A s f l. induction l as [|x l IH]; [reflexivity|]. cbn [flat_map]. rewrite page_app, IH. reflexivity. Qed.
Lemma page_each : forall s l, page_elements s l = flat_map (fun x => page_elements s [x]) l.
Proof. intros s l. rewrite <- page_flat. f_equal. induction l as [|x l IH]; [reflexivity|]. cbn [flat_map app]. rewrite <- IH. reflexivity. Qed.
Lemma page_element : forall s n a kids, page_elements s [Element n a kids] = (if name_is s n then [Element n a kids] else []) ++ page_elements s kids.
Proof. intros s n a kids. unfold page_elements. cbn [flat_map parts]. rewrite app_nil_r. cbn [filter named_node]. destruct (name_is s n); reflexivity. Qed.
Lemma Forall2_flat : forall {A B C} (R : B -> C -> Prop) (f : A -> list B) (g : A -> list C) l, (forall x, In x l -> Forall2 R (f x) (g x)) -> Forall2 R (flat_map f l) (flat_map g l).
Proof.
  intros A B C R f g l. induction l as [|x l IH]; intros H; [constructor|]. cbn [flat_map]. apply Forall2_app; [apply H; left; reflexivity|]. apply IH. intros y I. apply H. right. exact I.
Qed.
Lemma simple_names : forall n a kids, simple_text (Element n a kids) = true ->
  name_is "Text" n = false /\ name_is "LineSeg" n = false /\ name_is "ControlChar" n = false /\ name_is "TableControl" n = false /\ name_is "GShapeObjectControl" n = false /\
  name_is "ShapeComponent" n = false /\ name_is "FootNote" n = false /\ name_is "EndNote" n = false.
Proof.
  intros n a kids O. cbn [simple_text] in O. apply andb_true_iff in O as [O1 _]. apply negb_true_iff in O1. cbn [existsb] in O1.
  repeat (apply orb_false_iff in O1 as [? O1]). repeat split; assumption.
Qed.
Lemma no_pages : forall {A} s (f : A -> list xnode) l, (forall x, In x l -> page_elements s (f x) = []) -> page_elements s (flat_map f l) = [].
Proof. intros A s f l H. rewrite page_flat. apply flat_map_none. exact H. Qed.
Lemma counted_none : forall s choose (f : Z -> xnode -> list xnode) l n, (forall k x, In x l -> choose x = true -> page_elements s (f k x) = []) -> page_elements s (counted choose f n l) = [].
Proof.
  intros s choose f. induction l as [|x r IH]; intros n H; [reflexivity|]. cbn [counted]. destruct (choose x) eqn:C.
  - rewrite page_app, (H n x) by (try (left; reflexivity); exact C). apply IH. intros k y I. apply H. right. exact I.
  - apply IH. intros k y I. apply H. right. exact I.
Qed.

Definition stands_for document (p y : xnode) : Prop :=
  named_node "text:p" y = true /\ value_of "text:style-name" y = paragraph_style_name document p /\ opendoc_text y = apply_templates p.

Lemma simple_order : forall geometry document x up, simple_text x = true ->
  Forall2 (stands_for document) (page_elements "Paragraph" [x]) (page_elements "text:p" (write geometry document up x)).
Proof.
  intros geometry document x. induction x as [t|n a kids IH] using xnode_all; intros up O; [constructor|].
  destruct (simple_names n a kids O) as (Q1 & Q2 & Q3 & Q4 & Q5 & Q6 & Q7 & Q8). pose proof (write_simple geometry document _ up O) as Same.
  cbn [simple_text] in O. apply andb_true_iff in O as [_ O]. rewrite page_element.
  destruct (name_is "Paragraph" n) eqn:Np.
  - destruct (write_paragraph geometry document up (Element n a kids) Np) as (rest & E).
    assert (Er : rest = [] /\ page_elements "text:p" (kids_of_node (hd (Characters []) (write geometry document up (Element n a kids)))) = []).
    { cbn [write] in *. rewrite Np in *. split.
      - apply (f_equal (@tl xnode)) in E. cbn [tl] in E. rewrite <- E. apply flat_map_none. intros l L. rewrite forallb_forall in O. specialize (O l L). destruct l as [ln la lk|]; [|reflexivity].
        apply andb_true_iff in O as [O2 O3]. rewrite O2. apply flat_map_none. intros k K. rewrite forallb_forall in O3. specialize (O3 k K).
        destruct (line_kids k O3) as [O4|(_ & K2 & _)]; [|rewrite K2; reflexivity]. clear O3. rename O4 into O3. apply andb_true_iff in O3 as [O3 _].
        destruct (named_elem _ _ O3) as (ka & kk & ->). reflexivity.
      - cbn [hd elem kids_of_node]. apply counted_none. intros line l L _. rewrite forallb_forall in O. specialize (O l L). destruct l as [ln la lk|]; [|reflexivity].
        apply andb_true_iff in O as [_ O3]. apply counted_none. intros text k K Wk. rewrite forallb_forall in O3. specialize (O3 k K).
        destruct (line_kids k O3) as [O4|(K1 & _ & _ & _ & K5)]; [clear O3; rename O4 into O3|].
        2:{ rewrite K1. destruct (K5 geometry document (Element ln la lk :: Element n a kids :: up)) as [K6|K6]; [congruence|rewrite K6; reflexivity]. }
        apply andb_true_iff in O3 as [O3 _]. rewrite O3.
        unfold span, elem. rewrite page_element. change (name_is "text:p" (zs "text:span")) with false. cbn [app]. destruct (first_text (kids_of_node k)); reflexivity. }
    destruct Er as [-> Er]. rewrite E in *. cbn [hd elem kids_of_node] in Er. unfold elem. cbn [kids_of_node]. rewrite page_element, Er.
    assert (Nk : page_elements "Paragraph" kids = []).
    { rewrite page_each. apply flat_map_none. intros l L. rewrite forallb_forall in O. specialize (O l L). destruct l as [ln la lk|]; [|reflexivity]. apply andb_true_iff in O as [O2 O3].
      rewrite page_element. apply name_is_spec in O2. subst ln. change (name_is "Paragraph" (zs "LineSeg")) with false. cbn [app]. rewrite page_each. apply flat_map_none. intros k K.
      rewrite forallb_forall in O3. specialize (O3 k K).
      destruct (line_kids k O3) as [O4|(_ & _ & _ & K4 & _)]; [clear O3; rename O4 into O3|exact K4]. apply andb_true_iff in O3 as [O3 O4]. destruct (named_elem _ _ O3) as (ka & kk & ->). rewrite page_element.
      change (name_is "Paragraph" (zs "Text")) with false. cbn [app kids_of_node] in *. rewrite page_each. apply flat_map_none. intros c C. rewrite forallb_forall in O4. specialize (O4 c C). destruct c; [discriminate|reflexivity]. }
    rewrite Nk. change (name_is "text:p" (zs "text:p")) with true. cbn [app]. constructor; [|constructor]. split; [reflexivity|]. split; [reflexivity|]. rewrite <- Same. cbn [flat_map]. rewrite app_nil_r. reflexivity.
  - cbn [write app]. rewrite Np, Q1, Q2, Q3, Q4, Q5, Q6, Q7, Q8. cbn [orb andb]. rewrite page_each, page_flat. apply Forall2_flat. intros k K. rewrite Forall_forall in IH. apply IH; [exact K|].
    rewrite forallb_forall in O. apply O. exact K.
Qed.
Lemma in_order : forall measure geometry document m d b, one_text document m d b -> Forall (fun k => simple_text k = true) (children_named "SectionDef" b) ->
  Forall2 (stands_for document) (page_elements "Paragraph" (children_named "SectionDef" b)) (page_elements "text:p" (file_text (content_xml measure geometry document))).
Proof.
  intros measure geometry document m d b T H. rewrite (file_text_is measure geometry document m d b T). unfold office_text.
  match goal with |- Forall2 _ _ (page_elements "text:p" (_ :: ?l)) => change (Forall2 (stands_for document) (page_elements "Paragraph" (children_named "SectionDef" b)) (page_elements "text:p" l)) end.
  rewrite page_each, page_flat. apply Forall2_flat. intros s I. rewrite Forall_forall in H. apply simple_order. apply H. exact I.
Qed.
Lemma simple_paragraph : forall geometry document up p y rest, named_node "Paragraph" p = true -> simple_text p = true -> write geometry document up p = y :: rest -> opendoc_text y = apply_templates p.
Proof.
  intros geometry document up p y rest N O E. pose proof (simple_order geometry document p up O) as F. destruct (write_paragraph geometry document up p N) as (r & E'). rewrite E in *.
  apply (f_equal (hd (Characters []))) in E'. cbn [hd] in E'. subst y. destruct (named_elem _ _ N) as (a & kids & ->). unfold elem in *. rewrite page_element in F.
  match type of F with context [page_elements "text:p" (?y :: ?r)] => change (page_elements "text:p" (y :: r)) with (page_elements "text:p" ([y] ++ r)) in F end.
  rewrite page_app, page_element in F. cbn [app] in F. change (name_is "Paragraph" (zs "Paragraph")) with true in F. change (name_is "text:p" (zs "text:p")) with true in F. cbn [app] in F.
  inversion F as [|? ? ? ? G _]. destruct G as (_ & _ & G). exact G.
Qed.

Lemma Forall2_in_left : forall {A B} (R Q : A -> B -> Prop) l l', Forall2 R l l' -> (forall x y, In x l -> R x y -> Q x y) -> Forall2 Q l l'.
Proof.
  intros A B R Q l l' H. induction H as [|x y l l' H F IH]; intros G; [constructor|]. constructor; [apply G; [left; reflexivity|exact H]|]. apply IH. intros a c I. apply G. right. exact I.
Qed.
Lemma parts_below : forall x, parts x = map self (below [] x).
Proof.
  intros x. induction x as [t|n a kids IH] using xnode_all; [reflexivity|]. cbn [parts below map self]. f_equal. rewrite map_flat_map. apply flat_map_ext_in. intros k K.
  rewrite Forall_forall in IH. rewrite (IH k K). apply below_up.
Qed.
Lemma section_paragraph : forall document m d b, one_text document m d b -> forall p, In p (page_elements "Paragraph" (children_named "SectionDef" b)) -> In p (nodes_named_in "Paragraph" document).
Proof.
  intros document m d b T p I. apply filter_In in I as [I N]. apply in_flat_map in I as (s & Is & Ip). pose proof (in_children _ _ _ Is) as [_ Ns]. rewrite parts_below in Ip.
  destruct (named_elem _ _ N) as (pa & pk & ->). destruct (named_elem _ _ Ns) as (a & kids & ->). destruct Ip as [E|Ip]; [discriminate E|].
  rewrite map_flat_map in Ip. apply in_flat_map in Ip as (k & Ik & Ip). rewrite (below_up k _ []) in Ip.
  exact (text_in_document document m d b T "Paragraph" _ (in_text_of b "Paragraph" _ k _ Is Ik Ip N)).
Qed.
