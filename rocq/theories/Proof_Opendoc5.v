(** Proofs about the texts of hwp5odt: styles that are used, pages of sections, the text. *)
From Coq Require Import ZArith String List Bool Lia.
From Verif Require Import Base Model_Text Model_XmlText Model_Plaintext Model_Html Spec_Text Spec_Html Proof_Html Proof_Html2 Proof_Html3 Model_Opendoc Spec_Opendoc Proof_Opendoc Proof_Opendoc2 Proof_Opendoc3 Proof_Opendoc4.
Import ListNotations.
Open Scope string_scope.
Open Scope list_scope.
Open Scope Z_scope.

Lemma xnode_deep : forall P : xnode -> Prop, (forall x, (forall k y, In k (kids_of_node x) -> In y (map self (below [] k)) -> P y) -> P x) -> forall x, P x.
Proof.
  intros P H x. assert (G : forall y, In y (map self (below [] x)) -> P y); [|apply G, below_self].
  induction x as [t|n a kids IH] using xnode_all; intros y I.
  - destruct I as [<-|[]]. apply H. intros k z [].
  - rewrite Forall_forall in IH. cbn [below map self] in I. destruct I as [<-|I].
    + apply H. intros k z K Z. cbn [kids_of_node] in K. exact (IH k K z Z).
    + rewrite map_flat_map in I. apply in_flat_map in I as (k & K & I). rewrite (below_up k _ []) in I. exact (IH k K y I).
Qed.
Lemma all_nodes_one : forall x, map self (all_nodes [x]) = map self (below [] x).
Proof. intros x. unfold all_nodes. cbn [flat_map]. rewrite app_nil_r. reflexivity. Qed.
Lemma below_trans : forall x q z, In q (map self (below [] x)) -> In z (map self (below [] q)) -> In z (map self (below [] x)).
Proof. intros x q z Q Z. rewrite <- all_nodes_one in *. eapply nodes_below; [exact Q|]. rewrite <- all_nodes_one. exact Z. Qed.
Lemma below_of_kid : forall x k, In k (kids_of_node x) -> In k (map self (below [] x)).
Proof. intros x k K. eapply below_kids; [apply below_self|exact K]. Qed.
Lemma in_children : forall s x k, In k (children_named s x) -> In k (kids_of_node x) /\ named_node s k = true.
Proof. intros s x k I. rewrite children_filter in I. apply filter_In in I. exact I. Qed.

(** ** Styles that are used *)

Section Used.
  Variable geometry : list xnode -> list attribute.
  Variable document : list xnode.
  Notation write := (write geometry document).

  (** A cell of a table in [x]. *)
  Definition cell_in (x q : xnode) (i j : nat) : Prop := In q (map self (below [] x)) /\ named_node "TableControl" q = true /\
    exists t r c, In t (children_named "TableBody" q) /\ nth_error (children_named "TableRow" t) i = Some r /\ nth_error (children_named "TableCell" r) j = Some c.
  Definition node_in (s : string) (x q : xnode) : Prop := In q (map self (below [] x)) /\ named_node s q = true.
  Definition well (x y : xnode) : Prop :=
    (named_node "text:p" y = true -> exists q, node_in "Paragraph" x q /\ value_of "text:style-name" y = paragraph_style_name document q) /\
    (named_node "table:table" y = true -> exists q, node_in "TableControl" x q /\ value_of "table:style-name" y = table_name q) /\
    (named_node "table:table-cell" y = true -> exists q i j, cell_in x q i j /\ value_of "table:style-name" y = cell_name q (1 + Z.of_nat i) (1 + Z.of_nat j)) /\
    (existsb (fun s => named_node s y) (map snd drawings) = true -> exists q, node_in "ShapeComponent" x q /\ value_of "draw:style-name" y = shape_name q).
  Definition wl (x : xnode) (l : list xnode) : Prop := forall y, In y (flat_map parts l) -> well x y.
  Lemma well_mono : forall x q y, In q (map self (below [] x)) -> well q y -> well x y.
  Proof.
    intros x q y I (W1 & W2 & W3 & W4). split; [|split; [|split]].
    - intros N. destruct (W1 N) as (z & [Z1 Z2] & E). exists z. split; [split; [eapply below_trans; eassumption|exact Z2]|exact E].
    - intros N. destruct (W2 N) as (z & [Z1 Z2] & E). exists z. split; [split; [eapply below_trans; eassumption|exact Z2]|exact E].
    - intros N. destruct (W3 N) as (z & i & j & (Z1 & Z2 & Z3) & E). exists z, i, j. split; [split; [eapply below_trans; eassumption|split; assumption]|exact E].
    - intros N. destruct (W4 N) as (z & [Z1 Z2] & E). exists z. split; [split; [eapply below_trans; eassumption|exact Z2]|exact E].
  Qed.
  Lemma wl_nil : forall x, wl x [].
  Proof. intros x y []. Qed.
  Lemma wl_app : forall x l l', wl x l -> wl x l' -> wl x (l ++ l').
  Proof. intros x l l' A B y I. rewrite flat_map_app in I. apply in_app_or in I as [I|I]; [exact (A y I)|exact (B y I)]. Qed.
  Lemma wl_cons : forall x e l, wl x [e] -> wl x l -> wl x (e :: l).
  Proof. intros x e l A B. apply (wl_app x [e] l A B). Qed.
  Lemma wl_flat_map : forall {A} x (f : A -> list xnode) l, (forall k, In k l -> wl x (f k)) -> wl x (flat_map f l).
  Proof. intros A x f l H y I. rewrite parts_nested in I. apply in_flat_map in I as (k & K & I). exact (H k K y I). Qed.
  Lemma wl_map : forall {A} x (f : A -> xnode) l, (forall k, In k l -> wl x [f k]) -> wl x (map f l).
  Proof. intros A x f l H. induction l as [|k r IH]; [apply wl_nil|]. cbn [map]. apply wl_cons; [apply H; left; reflexivity|apply IH; intros; apply H; right; assumption]. Qed.
  Lemma wl_counted : forall x choose f l n, (forall i k, nth_error (filter choose l) i = Some k -> wl x (f (n + Z.of_nat i) k)) -> wl x (counted choose f n l).
  Proof.
    intros x choose f l. induction l as [|k r IH]; intros n H; [apply wl_nil|]. cbn [counted]. cbn [filter] in H. destruct (choose k).
    - apply wl_app; [specialize (H 0%nat k eq_refl); rewrite Z.add_0_r in H; exact H|]. apply IH. intros i z N. specialize (H (S i) z N). replace (n + 1 + Z.of_nat i) with (n + Z.of_nat (S i)) by lia. exact H.
    - apply IH. exact H.
  Qed.
  Lemma wl_elem : forall x e attrs kids, well x (elem e attrs kids) -> wl x kids -> wl x [elem e attrs kids].
  Proof. intros x e attrs kids W K y I. cbn [flat_map parts elem] in I. rewrite app_nil_r in I. destruct I as [<-|I]; [exact W|exact (K y I)]. Qed.
  Definition neutral (e : string) : bool := negb (existsb (fun s => name_is s (zs e)) (["text:p"; "table:table"; "table:table-cell"] ++ map snd drawings)).
  Lemma well_neutral : forall x e attrs kids, neutral e = true -> well x (elem e attrs kids).
  Proof.
    intros x e attrs kids N. unfold neutral in N. apply negb_true_iff in N. rewrite existsb_app in N. apply orb_false_iff in N as [N1 N2]. cbn [existsb] in N1.
    apply orb_false_iff in N1 as [A N1]. apply orb_false_iff in N1 as [B N1]. apply orb_false_iff in N1 as [C _].
    split; [|split; [|split]]; cbn [named_node elem]; intros E; exfalso; congruence.
  Qed.
  Lemma wl_neutral : forall x e attrs kids, neutral e = true -> wl x kids -> wl x [elem e attrs kids].
  Proof. intros x e attrs kids N K. apply wl_elem; [apply well_neutral; exact N|exact K]. Qed.
  Lemma wl_characters : forall x t, wl x (characters t).
  Proof. intros x [|c t]; [apply wl_nil|]. intros y [<-|[]]. split; [|split; [|split]]; intros E; discriminate. Qed.
  Lemma wl_text : forall x t, wl x [Characters t].
  Proof. intros x t y [<-|[]]. split; [|split; [|split]]; intros E; discriminate. Qed.

  Lemma all_well : forall x up, wl x (write up x).
  Proof.
    intros x. induction x as [x IH] using xnode_deep. intros up.
    assert (D : forall k z u, In k (kids_of_node x) -> In z (map self (below [] k)) -> wl x (write u z)).
    { intros k z u K Z y I. apply (well_mono x z); [eapply below_trans; [apply below_of_kid; exact K|exact Z]|]. exact (IH k z K Z u y I). }
    assert (D1 : forall k u, In k (kids_of_node x) -> wl x (write u k)) by (intros k u K; apply (D k k u K), below_self).
    assert (D2 : forall k z u, In k (kids_of_node x) -> In z (kids_of_node k) -> wl x (write u z)) by (intros k z u K Z; apply (D k z u K), below_of_kid, Z).
    destruct (named_node "Paragraph" x) eqn:Np.
    { destruct x as [n a kids|t]; [|discriminate]. cbn [named_node] in Np. cbn [kids_of_node] in *. cbn [Model_Opendoc.write]. rewrite Np. apply wl_cons.
      - apply wl_elem.
        + split; [|split; [|split]]; intros E; try discriminate. exists (Element n a kids). split; [split; [apply below_self|exact Np]|reflexivity].
        + apply wl_counted. intros i l N. apply nth_error_In, filter_In in N as [N _]. destruct l as [ln la lk|]; [|apply wl_nil]. apply wl_counted. intros j k M. apply nth_error_In, filter_In in M as [M _].
          destruct (named_node "Text" k); [apply wl_neutral; [reflexivity|apply wl_characters]|]. apply (D2 (Element ln la lk) k); assumption.
      - apply wl_flat_map. intros l L. destruct l as [ln la lk|]; [|apply wl_nil]. destruct (name_is "LineSeg" ln); [|apply wl_nil]. apply wl_flat_map. intros k K.
        destruct (named_node "TableControl" k); [|apply wl_nil]. apply (D2 (Element ln la lk) k); assumption. }
    destruct (named_node "TableControl" x) eqn:Nt.
    { rewrite write_table by exact Nt. apply wl_elem.
      - split; [|split; [|split]]; intros E; try discriminate. exists x. split; [split; [apply below_self|exact Nt]|reflexivity].
      - apply wl_cons; [apply wl_neutral; [reflexivity|apply wl_nil]|]. apply wl_flat_map. intros t It. apply wl_counted. intros i r R. apply wl_neutral; [reflexivity|].
        apply wl_counted. intros j c C. destruct (in_children _ _ _ It) as [Kt _]. pose proof R as R'. apply nth_error_In, filter_In in R' as [Kr _]. pose proof C as C'. apply nth_error_In, filter_In in C' as [Kc _]. apply wl_elem.
        + split; [|split; [|split]]; intros E; try discriminate. exists x, i, j. split; [|reflexivity]. split; [apply below_self|]. split; [exact Nt|]. exists t, r, c.
          split; [exact It|]. rewrite !children_filter. split; assumption.
        + apply wl_flat_map. intros k K. apply (D t k _ Kt). eapply below_trans; [apply below_of_kid; exact Kr|]. eapply below_trans; [apply below_of_kid; exact Kc|]. apply below_of_kid. exact K. }
    destruct x as [n a kids|t]; [|apply wl_text]. cbn [named_node] in Np, Nt. cbn [kids_of_node] in *. cbn [Model_Opendoc.write]. rewrite Np, Nt. set (X := Element n a kids) in *.
    destruct (name_is "Text" n || name_is "LineSeg" n || name_is "ControlChar" n); [apply wl_nil|].
    destruct (name_is "GShapeObjectControl" n); [apply wl_flat_map; intros k K; destruct (named_node "ShapeComponent" k); [apply (D1 k); exact K|apply wl_nil]|].
    destruct (name_is "ShapeComponent" n) eqn:Ns; cbn [andb].
    { assert (W : forall e attrs l, In e (map snd drawings) -> wl X l -> wl X [elem e (put "draw:style-name" (shape_name X) :: attrs) l]).
      { intros e attrs l I L. apply wl_elem; [|exact L]. split; [|split; [|split]]; intros E.
        - repeat (destruct I as [<-|I]; [discriminate|]). contradiction.
        - repeat (destruct I as [<-|I]; [discriminate|]). contradiction.
        - repeat (destruct I as [<-|I]; [discriminate|]). contradiction.
        - exists X. split; [split; [apply below_self|exact Ns]|reflexivity]. }
      destruct (attr_is "chid" "$con" X); [apply W; [cbn; auto|]; apply wl_flat_map; intros k K; destruct (named_node "ShapeComponent" k); [apply (D1 k); exact K|apply wl_nil]|].
      destruct (attr_is "chid" "$pic" X).
      { apply W; [cbn; auto|]. apply wl_map. intros p P. apply wl_neutral; [reflexivity|]. apply wl_flat_map. intros e E. destruct (attr_is "inline" "true" e); [|apply wl_nil]. apply wl_neutral; [reflexivity|apply wl_characters]. }
      destruct (attr_is "chid" "$rec" X).
      { apply W; [cbn; auto|]. apply wl_flat_map. intros l L. destruct l as [ln la lk|]; [|apply wl_nil]. destruct (name_is "TextboxParagraphList" ln); [|apply wl_nil]. apply wl_flat_map. intros k K.
        apply (D2 (Element ln la lk) k); assumption. }
      destruct (attr_is "chid" "$lin" X); [apply W; [cbn; auto|]; apply wl_nil|].
      destruct (name_is "FootNote" n || name_is "EndNote" n) eqn:F; [|apply wl_flat_map; intros k K; apply (D1 k); exact K].
      exfalso. apply name_is_spec in Ns. subst n. discriminate. }
    destruct (name_is "FootNote" n || name_is "EndNote" n).
    { apply wl_neutral; [reflexivity|]. apply wl_cons; [apply wl_neutral; [reflexivity|apply wl_characters]|]. apply wl_neutral; [reflexivity|]. apply wl_flat_map. intros l L.
      destruct l as [ln la lk|]; [|apply wl_nil]. destruct (name_is "ListHeader" ln); [|apply wl_nil]. apply wl_flat_map. intros k K. destruct (named_node "Paragraph" k); [|apply wl_nil].
      apply (D2 (Element ln la lk) k); assumption. }
    apply wl_flat_map. intros k K. apply (D1 k). exact K.
  Qed.
End Used.

Section Whole.
  Variable measure : string -> xnode -> list Z.
  Variable geometry : list xnode -> list attribute.
  Variable document : list xnode.
  Variables m d b : xnode.
  Hypothesis T : one_text document m d b.
  Notation styles := (file_styles (content_xml measure geometry document) (styles_xml measure document)).

  Lemma file_text_is : file_text (content_xml measure geometry document) = office_text geometry document d b.
  Proof.
    unfold file_text, content_xml. rewrite (ot_document _ _ _ _ T). cbn [flat_map map]. rewrite (ot_body _ _ _ _ T). cbn [map app flat_map].
    cbn [children_named elem filter]. repeat match goal with |- context [name_is ?s (zs ?t)] => let v := eval vm_compute in (name_is s (zs t)) in change (name_is s (zs t)) with v end.
    cbv iota. cbn [app flat_map children_named filter]. repeat match goal with |- context [name_is ?s (zs ?t)] => let v := eval vm_compute in (name_is s (zs t)) in change (name_is s (zs t)) with v end.
    cbv iota. cbn [app flat_map kids_of_node]. rewrite !app_nil_r. exact (app_nil_r _).
  Qed.

  Lemma in_text_of : forall s x k q, In x (children_named "SectionDef" b) -> In k (kids_of_node x) -> In q (map self (below [] k)) -> named_node s q = true -> In q (in_text s b).
  Proof.
    intros s x k q X K Q N. unfold in_text, nodes_named_in. apply filter_In. split; [|exact N]. apply (nodes_below _ k []); [|exact Q]. apply nodes_root. apply in_flat_map. exists x. split; assumption.
  Qed.
  (** What is in the text is in the document. *)
  Lemma text_in_document : forall s q, In q (in_text s b) -> In q (nodes_named_in s document).
  Proof.
    intros s q I. destruct (text_path d b s q I) as (path & J & E). rewrite <- everywhere_nodes. rewrite <- E. apply in_map. exact (part_in _ _ _ (in_sections_part document m d b T s) J).
  Qed.
  Hypothesis W : Forall (fun p => exists st, refers "style-id" p (children_named "Style" m) st) (nodes_named_in "Paragraph" document).
  Lemma section_kid_below : forall x q, In q (map self (below [] x)) -> named_node "SectionDef" x = true -> forall s, named_node s q = true -> zs s <> zs "SectionDef" ->
    exists k, In k (kids_of_node x) /\ In q (map self (below [] k)).
  Proof.
    intros [n a kids|t] q I N s S D; [|discriminate]. cbn [below map self] in I. destruct I as [<-|I].
    - exfalso. cbn [named_node] in N, S. apply name_is_spec in N, S. subst n. apply D. symmetry. exact S.
    - rewrite map_flat_map in I. apply in_flat_map in I as (k & K & I). rewrite (below_up k _ []) in I. exists k. split; assumption.
  Qed.
  Lemma used_in_text : forall y, In y (flat_map parts (file_text (content_xml measure geometry document))) ->
    y = elem "text:sequence-decls" [] [] \/ exists x, In x (children_named "SectionDef" b) /\ well document x y.
  Proof.
    intros y I. rewrite file_text_is in I. unfold office_text in I. cbn [flat_map parts elem] in I. destruct I as [<-|I]; [left; reflexivity|]. right. cbn [app flat_map] in I.
    rewrite parts_nested in I. apply in_flat_map in I as (x & X & I). exists x. split; [exact X|]. exact (all_well geometry document x _ y I).
  Qed.
  Lemma paragraph_defined : forall p, In p (nodes_named_in "Paragraph" document) -> List.length (styles_named "paragraph" (paragraph_style_name document p) styles) = 1%nat.
  Proof.
    intros p I. pose proof W as F. rewrite Forall_forall in F. destruct (F p I) as (st & R). rewrite (name_here document m d b T p st R). destruct (own p st) eqn:O.
    - destruct (own_here measure geometry document m d b T p st I R O) as (s & -> & _). reflexivity.
    - rewrite (styles_are measure geometry document m d b T).
      rewrite (style_alone measure document m d b T "paragraph" (local_style_name st) _ (style_in measure document m d b T st (style_here m p st R)) (key_of_style measure document st)). reflexivity.
  Qed.
  Lemma all_defined : forall y, In y (flat_map parts (file_text (content_xml measure geometry document))) ->
    (named_node "text:p" y = true -> List.length (styles_named "paragraph" (value_of "text:style-name" y) styles) = 1%nat) /\
    (named_node "table:table" y = true -> List.length (styles_named "table" (value_of "table:style-name" y) styles) = 1%nat) /\
    (named_node "table:table-cell" y = true -> List.length (styles_named "table-cell" (value_of "table:style-name" y) styles) = 1%nat) /\
    (existsb (fun s => named_node s y) (map snd drawings) = true -> List.length (styles_named "graphic" (value_of "draw:style-name" y) styles) = 1%nat).
  Proof.
    intros y I. destruct (used_in_text y I) as [->|(x & X & W1 & W2 & W3 & W4)]; [split; [|split; [|split]]; intros E; discriminate|].
    destruct (in_children _ _ _ X) as [_ Nx].
    assert (G : forall s q, node_in s x q -> zs s <> zs "SectionDef" -> In q (in_text s b)).
    { intros s q [Q N] D. destruct (section_kid_below x q Q Nx s N D) as (k & K & Qk). exact (in_text_of s x k q X K Qk N). }
    split; [|split; [|split]]; intros E.
    - destruct (W1 E) as (q & Q & ->). apply paragraph_defined. apply text_in_document. apply G; [exact Q|discriminate].
    - destruct (W2 E) as (q & Q & ->). rewrite (styles_are measure geometry document m d b T). apply G in Q; [|discriminate].
      rewrite (style_alone measure document m d b T "table" (table_name q) (style_of_table measure q) (table_in measure document d b q Q) eq_refl). reflexivity.
    - destruct (W3 E) as (q & i & j & (Q & Nq & t & r & c & It & R & C) & ->). rewrite (styles_are measure geometry document m d b T). apply (conj Q) in Nq. apply (G "TableControl") in Nq; [|discriminate].
      assert (B : children_named "TableBody" q = [t]).
      { pose proof (ot_tables _ _ _ _ T) as F. rewrite Forall_forall in F. specialize (F q (text_in_document _ _ Nq)). destruct (children_named "TableBody" q) as [|t' [|]]; try discriminate. destruct It as [->|[]]. reflexivity. }
      rewrite (style_alone measure document m d b T "table-cell" _ _ (cell_style_in measure document d b q t r c i j Nq B R C) eq_refl). reflexivity.
    - destruct (W4 E) as (q & Q & ->). rewrite (styles_are measure geometry document m d b T). apply G in Q; [|discriminate]. destruct (text_path d b _ q Q) as (path & J & P).
      assert (K : In (style_of_shape measure path) (all_styles measure document d b)) by (unfold all_styles, automatic_styles; apply in_or_app; left; do 3 (apply in_or_app; right); apply in_map; exact J).
      rewrite (style_alone measure document m d b T "graphic" (shape_name q) _ K ltac:(rewrite <- P; reflexivity)). reflexivity.
  Qed.
End Whole.

(** ** The page of a section *)
Lemma section_page : forall measure geometry document m d b p c s rest st k up, one_text document m d b ->
  In (p :: c :: s :: rest) (all_nodes document) -> named_node "Paragraph" p = true -> named_node "SectionDef" s = true ->
  attr "new-section" p = Some (zs "1") -> attr "new-page" p = Some (zs "1") -> attr "section-id" s = Some (fmt_d (Z.of_nat k)) -> refers "style-id" p (children_named "Style" m) st ->
  exists y r o, write geometry document up p = y :: r /\
    styles_named "paragraph" (value_of "text:style-name" y) (file_styles (content_xml measure geometry document) (styles_xml measure document)) = [o] /\
    attr "style:master-page-name" o = Some (zs "MasterPage-" ++ fmt_d (Z.of_nat (S k))).
Proof.
  intros measure geometry document m d b p c s rest st k up T I Np Ns Sn Pn Sid R. destruct (write_paragraph geometry document up p Np) as (r & E).
  assert (J : In (p :: c :: s :: rest) (everywhere document "Paragraph")) by (apply filter_In; split; [exact I|exact Np]).
  pose proof (refers_found document m "Style" "style-id" p st (ot_mapped _ _ _ _ T) ltac:(cbn; auto) R) as F.
  assert (O : own_style [st] p = true) by (unfold own_style; rewrite (proj2 (attr_is_spec _ _ _) Pn); apply orb_true_r).
  destruct (style_of_paragraph measure document (p :: c :: s :: rest)) as [|o l] eqn:V; [unfold style_of_paragraph in V; cbn [self] in V; rewrite F, O in V; discriminate|].
  eexists _, r, o. split; [exact E|]. split.
  - cbn [value_of attr elem lookup put]. change (value_of "text:style-name" (elem "text:p" [put "text:style-name" (paragraph_style_name document p)] _)) with (paragraph_style_name document p).
    rewrite (name_here document m d b T p st R). unfold own. rewrite O, (styles_are measure geometry document m d b T). apply (style_alone measure document m d b T).
    + apply (paragraph_style_in measure document d b _ o J). unfold styles_of_paragraph. rewrite V. left. reflexivity.
    + unfold style_of_paragraph in V. cbn [self] in V. rewrite F, O in V. injection V as <- _. reflexivity.
  - unfold style_of_paragraph in V. cbn [self] in V. rewrite F, O in V. injection V as <- _. rewrite (proj2 (attr_is_spec _ _ _) Sn). unfold master_page_name. rewrite Ns.
    cbn [map app]. rewrite (number_text_is _ _ _ Sid). reflexivity.
Qed.

(** ** The text *)
Lemma opendoc_nested : forall {A} (f : A -> list xnode) l, flat_map opendoc_text (flat_map f l) = flat_map (fun x => flat_map opendoc_text (f x)) l.
Proof. intros A f l. induction l as [|x l IH]; [reflexivity|]. cbn [flat_map]. rewrite flat_map_app, IH. reflexivity. Qed.
Lemma opendoc_characters : forall t, flat_map opendoc_text (characters t) = t.
Proof. intros [|c t]; [reflexivity|]. cbn. rewrite app_nil_r. reflexivity. Qed.
(** What a line of a simple text holds: texts, or nothing that is written. *)
Lemma line_kids : forall k, only_text k || control_char k || wordless k = true ->
  only_text k = true \/
  (named_node "Text" k = false /\ named_node "TableControl" k = false /\ apply_templates k = [] /\ page_elements "Paragraph" [k] = [] /\
   forall geometry document up, written k = false \/ write geometry document up k = []).
Proof.
  intros k H. apply orb_true_iff in H as [H|H]; [apply orb_true_iff in H as [H|H]; [left; exact H|]|]; right.
  - apply andb_true_iff in H as [N K]. destruct k as [n a kk|]; [|discriminate]. cbn [named_node] in N. apply name_is_spec in N. subst n. cbn [kids_of_node] in K. destruct kk as [|? ?]; [|discriminate].
    split; [reflexivity|]. split; [reflexivity|]. split; [reflexivity|]. split; [reflexivity|]. intros geometry document up. right. reflexivity.
  - pose proof (wordless_silent k H) as W. assert (P : page_elements "Paragraph" [k] = []).
    { unfold page_elements. cbn [flat_map]. rewrite app_nil_r. apply filter_none. intros y Y. destruct (wordless_parts _ _ H Y) as (n & a & kk & -> & N). cbn [named_node]. apply N. left. reflexivity. }
    destruct (wordless_self _ H) as (n & a & kk & -> & N). cbn [named_node] in *. rewrite (N "Text"), (N "TableControl") by listed.
    split; [reflexivity|]. split; [reflexivity|]. split; [exact W|]. split; [exact P|]. intros geometry document up. left. unfold written. cbn [named_node].
    rewrite (N "Text"), (N "GShapeObjectControl"), (N "FootNote"), (N "EndNote"), (N "ControlChar") by listed. reflexivity.
Qed.
Lemma write_simple : forall geometry document x up, simple_text x = true -> flat_map opendoc_text (write geometry document up x) = apply_templates x.
Proof.
  intros geometry document x. induction x as [t|n a kids IH] using xnode_all; intros up O; [cbn; rewrite app_nil_r; reflexivity|].
  cbn [simple_text] in O. apply andb_true_iff in O as [O1 O2]. apply negb_true_iff in O1. cbn [existsb] in O1.
  apply orb_false_iff in O1 as [Q1 O1]. apply orb_false_iff in O1 as [Q2 O1]. apply orb_false_iff in O1 as [Q3 O1]. apply orb_false_iff in O1 as [Q4 O1].
  apply orb_false_iff in O1 as [Q5 O1]. apply orb_false_iff in O1 as [Q6 O1]. apply orb_false_iff in O1 as [Q7 O1]. apply orb_false_iff in O1 as [Q8 _].
  cbn [write apply_templates]. rewrite Q1, Q2, Q3, Q4, Q5, Q6, Q7, Q8. cbn [orb andb]. destruct (name_is "Paragraph" n) eqn:Np.
  - cbn [flat_map]. set (X := Element n a kids). rewrite (flat_map_none _ kids).
    + cbn [flat_map]. rewrite app_nil_r. unfold elem. cbn [opendoc_text]. change (name_is "text:p" (zs "text:p")) with true. cbv iota. f_equal. generalize X. clear - O2. intros X. generalize 1 at 2. revert O2.
      induction kids as [|l r IHl]; intros O2 z; [reflexivity|]. cbn [forallb] in O2. apply andb_true_iff in O2 as [F1 F2]. destruct l as [ln la lk|]; [|discriminate]. apply andb_true_iff in F1 as [F1 F3].
      cbn [counted named_node]. rewrite F1. rewrite flat_map_app, (IHl F2). cbn [flat_map]. f_equal. apply name_is_spec in F1. subst ln. cbn [apply_templates].
      repeat match goal with |- context [name_is ?s (zs "LineSeg")] => change (name_is s (zs "LineSeg")) with false end. cbv iota.
      generalize (Element (zs "LineSeg") la lk). intros l. clear - F3. generalize 1 at 1. revert F3. induction lk as [|k q IHk]; intros F3 w; [reflexivity|]. cbn [forallb] in F3. apply andb_true_iff in F3 as [K F3].
      destruct (line_kids k K) as [K'|(K1 & K2 & K3 & K4 & K5)];
        [clear K; rename K' into K|cbn [counted flat_map]; rewrite K1, K3; destruct (written k) eqn:W; [destruct (K5 geometry document (l :: X :: up)) as [K6|K6]; [congruence|rewrite K6; cbn [app]]|]; apply IHk; exact F3].
      apply andb_true_iff in K as [K _]. cbn [counted]. unfold written at 1. rewrite K. cbn [orb]. rewrite flat_map_app, (IHk F3). cbn [flat_map]. f_equal. unfold span, elem. cbn [flat_map opendoc_text].
      change (name_is "text:p" (zs "text:span")) with false. cbv iota. rewrite opendoc_characters, !app_nil_r. destruct k as [kn ka kk|]; [|discriminate]. cbn [named_node] in K. apply name_is_spec in K. subst kn. reflexivity.
    + intros l L. rewrite forallb_forall in O2. specialize (O2 l L). destruct l as [ln la lk|]; [|reflexivity]. apply andb_true_iff in O2 as [O2 O3]. rewrite O2. apply flat_map_none. intros k K.
      rewrite forallb_forall in O3. specialize (O3 k K). destruct (line_kids k O3) as [O4|(_ & K2 & _)]; [|rewrite K2; reflexivity]. clear O3. rename O4 into O3.
      apply andb_true_iff in O3 as [O3 _]. destruct k as [kn ka kk|]; [|discriminate]. cbn [named_node] in *. apply name_is_spec in O3. subst kn. reflexivity.
  - rewrite opendoc_nested. apply flat_map_same. intros k K. rewrite Forall_forall in IH. apply IH; [exact K|]. rewrite forallb_forall in O2. apply O2. exact K.
Qed.
Lemma text_same : forall measure geometry document m d b, one_text document m d b -> Forall (fun k => named_node "SectionDef" k = true /\ simple_text k = true) (kids_of_node b) ->
  flat_map opendoc_text (file_text (content_xml measure geometry document)) = root_template document.
Proof.
  intros measure geometry document m d b T H. rewrite (file_text_is measure geometry document m d b T). unfold office_text, root_template. rewrite (ot_document _ _ _ _ T). cbn [flat_map].
  rewrite (ot_body _ _ _ _ T). cbn [app flat_map]. rewrite app_nil_r. change (opendoc_text (elem "text:sequence-decls" [] [])) with (@nil Z). cbn [app]. rewrite opendoc_nested, children_filter.
  rewrite (filter_all (named_node "SectionDef")) by (intros k K; rewrite Forall_forall in H; apply H; exact K). apply flat_map_same. intros k K. apply write_simple. rewrite Forall_forall in H. apply H. exact K.
Qed.
