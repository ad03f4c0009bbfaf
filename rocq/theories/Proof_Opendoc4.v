(** Proofs about the texts of hwp5odt: tables, drawings, pages. *)
From Coq Require Import ZArith String List Bool Lia.
From Verif Require Import Base Model_Text Model_XmlText Model_Plaintext Model_Html Spec_Text Spec_Html Proof_Html Proof_Html2 Proof_Html3 Model_Opendoc Spec_Opendoc Proof_Opendoc Proof_Opendoc2 Proof_Opendoc3.
Import ListNotations.
Open Scope string_scope.
Open Scope list_scope.
Open Scope Z_scope.

Lemma counted_same_in : forall {A} choose (f g : Z -> xnode -> list A) l n, (forall k x, choose x = true -> f k x = g k x) -> counted choose f n l = counted choose g n l.
Proof. intros A choose f g l. induction l as [|x r IH]; intros n E; cbn [counted]; [reflexivity|]. destruct (choose x) eqn:C; [rewrite (E n x C), !(IH _ E)|rewrite !(IH _ E)]; reflexivity. Qed.
Lemma nth_counted : forall {A} choose (g : Z -> xnode -> A) l n i, nth_error (counted choose (fun k x => [g k x]) n l) i = option_map (g (n + Z.of_nat i)) (nth_error (filter choose l) i).
Proof.
  intros A choose g l. induction l as [|x r IH]; intros n i; cbn [counted filter]; [destruct i; reflexivity|]. destruct (choose x); [|apply IH].
  destruct i as [|i]; cbn [app nth_error]; [rewrite Z.add_0_r; reflexivity|]. rewrite IH. do 2 f_equal. lia.
Qed.
Lemma filter_all : forall {A} (f : A -> bool) l, (forall x, In x l -> f x = true) -> filter f l = l.
Proof. intros A f l H. induction l as [|x r IH]; [reflexivity|]. cbn [filter]. rewrite (H x (or_introl eq_refl)). f_equal. apply IH. intros y I. apply H. right. exact I. Qed.
Lemma filter_and : forall {A} (f g : A -> bool) l, filter (fun x => f x && g x) l = filter g (filter f l).
Proof. intros A f g l. induction l as [|x r IH]; [reflexivity|]. cbn [filter]. destruct (f x); cbn [andb filter]; [destruct (g x); rewrite IH; reflexivity|exact IH]. Qed.

Section Parts.
  Variable measure : string -> xnode -> list Z.
  Variable geometry : list xnode -> list attribute.
  Variable document : list xnode.
  Variables m d b : xnode.
  Hypothesis T : one_text document m d b.
  Notation styles := (file_styles (content_xml measure geometry document) (styles_xml measure document)).

  Lemma in_text_paths : forall s, map self (in_sections s d b) = in_text s b.
  Proof.
    intros s. unfold in_sections, in_text, nodes_named_in, all_nodes. rewrite map_flat_map, map_flat_map, filter_flat_map.
    induction (children_named "SectionDef" b) as [|x r IH]; [reflexivity|]. cbn [flat_map]. rewrite flat_map_app, IH. f_equal.
    rewrite map_flat_map. apply flat_map_same. intros k _. rewrite (below_up k [] [x; b; d]). symmetry. apply filter_map.
  Qed.
  Lemma text_path : forall s x, In x (in_text s b) -> exists path, In path (in_sections s d b) /\ self path = x.
  Proof. intros s x I. rewrite <- in_text_paths in I. apply in_map_iff in I as (path & E & I). exists path. split; assumption. Qed.

  (** Tables. *)
  Definition cell_of (up : list xnode) (x t r : xnode) (row column : Z) (c : xnode) : xnode :=
    elem "table:table-cell" [put "table:style-name" (cell_name x row column); put "table:number-columns-spanned" (value_of "colspan" c); put "table:number-rows-spanned" (value_of "rowspan" c)]
      (flat_map (write geometry document (c :: r :: t :: x :: up)) (kids_of_node c)).
  Definition row_of (up : list xnode) (x t : xnode) (row : Z) (r : xnode) : xnode :=
    elem "table:table-row" [] (counted (named_node "TableCell") (fun column c => [cell_of up x t r row column c]) 1 (kids_of_node r)).
  Lemma write_table : forall up x, named_node "TableControl" x = true -> write geometry document up x =
    [elem "table:table" [put "table:style-name" (table_name x)]
       (elem "table:table-column" [put "table:number-columns-repeated" (value_of_first "cols" (children_named "TableBody" x))] [] ::
        flat_map (fun t => counted (named_node "TableRow") (fun row r => [row_of up x t row r]) 1 (kids_of_node t)) (children_named "TableBody" x))].
  Proof.
    intros up [n a kids|t] N; [|discriminate]. cbn [named_node] in N. apply name_is_spec in N. subst n. cbn [write].
    repeat match goal with |- context [name_is ?s (zs "TableControl")] => let v := eval vm_compute in (name_is s (zs "TableControl")) in change (name_is s (zs "TableControl")) with v end.
    cbn [orb]. cbv iota. match goal with |- [elem _ _ (_ :: ?k)] = [elem _ _ (_ :: ?k')] => enough (E : k = k') by (rewrite E; reflexivity) end. cbn [children_named].
    set (X := Element (zs "TableControl") a kids). generalize X. intros X'. induction kids as [|t r IH]; [reflexivity|]. cbn [flat_map filter]. destruct t as [tn ta tk|t]; [|exact IH].
    destruct (name_is "TableBody" tn); [|exact IH]. cbn [flat_map]. f_equal; [|exact IH]. cbn [kids_of_node]. apply counted_same_in. intros i [rn ra rk|q] C; [|discriminate].
    unfold row_of. do 2 f_equal. apply counted_same_in. intros j [cn ca ck|q] C'; [|discriminate]. reflexivity.
  Qed.
  Lemma table_in : forall x, In x (in_text "TableControl" b) -> In (style_of_table measure x) (all_styles measure document d b).
  Proof.
    intros x I. destruct (text_path _ _ I) as (path & J & E). unfold all_styles, automatic_styles. apply in_or_app. left. apply in_or_app. right. apply in_or_app. left.
    apply in_map_iff. exists path. rewrite E. split; [reflexivity|exact J].
  Qed.
  Lemma text_named : forall s x, In x (in_text s b) -> named_node s x = true.
  Proof. intros s x I. apply filter_In in I as [_ I]. exact I. Qed.
  Lemma table_written : forall up x t, In x (in_text "TableControl" b) -> children_named "TableBody" x = [t] -> exists y, write geometry document up x = [y] /\ named_node "table:table" y = true /\
    value_of "table:style-name" y = table_name x /\ children_named "table:table-row" y = counted (named_node "TableRow") (fun row r => [row_of up x t row r]) 1 (kids_of_node t).
  Proof.
    intros up x t I B. eexists. split; [apply write_table; apply text_named; exact I|]. split; [reflexivity|]. split; [reflexivity|].
    rewrite children_filter. unfold elem at 1. cbn [kids_of_node]. rewrite B. cbn [flat_map]. rewrite app_nil_r. cbn [filter]. change (named_node "table:table-row" (elem "table:table-column" _ _)) with false.
    cbv iota. apply filter_all. intros y Y. apply in_counted in Y as (i & r & _ & [<-|[]]). reflexivity.
  Qed.
  Lemma table_says : forall x y prop, In x (in_text "TableControl" b) -> value_of "table:style-name" y = table_name x ->
    table_property styles y prop = says_itself (style_of_table measure x) "style:table-properties" prop.
  Proof.
    intros x y prop I E. unfold table_property. rewrite E, (styles_are measure geometry document m d b T).
    rewrite (effective_step _ _ _ _ _ _ _ (style_alone measure document m d b T "table" (table_name x) (style_of_table measure x) (table_in x I) eq_refl)).
    destruct (says_itself _ _ _); reflexivity.
  Qed.
  Lemma cell_style_in : forall x t r c i j, In x (in_text "TableControl" b) -> children_named "TableBody" x = [t] -> nth_error (children_named "TableRow" t) i = Some r ->
    nth_error (children_named "TableCell" r) j = Some c -> In (style_of_cell measure document (cell_name x (1 + Z.of_nat i) (1 + Z.of_nat j)) c) (all_styles measure document d b).
  Proof.
    intros x t r c i j I B Nr Nc. destruct (text_path _ _ I) as (path & J & P). unfold all_styles, automatic_styles. apply in_or_app. left. apply in_or_app. right. apply in_or_app. right. apply in_or_app. left.
    apply in_flat_map. exists path. split; [exact J|]. rewrite P. unfold styles_of_cells. rewrite B. cbn [flat_map]. rewrite app_nil_r. apply in_counted. exists i, r. split; [rewrite <- children_filter; exact Nr|].
    apply in_counted. exists j, c. split; [rewrite <- children_filter; exact Nc|]. left. reflexivity.
  Qed.
  Lemma cell_says : forall x t r c i j y prop, In x (in_text "TableControl" b) -> children_named "TableBody" x = [t] -> nth_error (children_named "TableRow" t) i = Some r ->
    nth_error (children_named "TableCell" r) j = Some c -> value_of "table:style-name" y = cell_name x (1 + Z.of_nat i) (1 + Z.of_nat j) ->
    cell_property styles y prop = says_itself (style_of_cell measure document [] c) "style:table-cell-properties" prop.
  Proof.
    intros x t r c i j y prop I B Nr Nc E. unfold cell_property. rewrite E, (styles_are measure geometry document m d b T).
    pose proof (cell_style_in x t r c i j I B Nr Nc) as J.
    rewrite (effective_step _ _ _ _ _ _ _ (style_alone measure document m d b T "table-cell" _ _ J eq_refl)).
    change (says_itself (style_of_cell measure document (cell_name x (1 + Z.of_nat i) (1 + Z.of_nat j)) c)) with (says_itself (style_of_cell measure document [] c)).
    destruct (says_itself _ _ _); reflexivity.
  Qed.

  (** What the styles of tables and cells say. *)
  Lemma itself_one : forall s kind prop attrs, children_named kind s = [elem kind attrs []] -> says_itself s kind prop = lookup (zs prop) attrs.
  Proof. intros s kind prop attrs E. unfold says_itself. rewrite E. cbn [map first_of attr elem]. destruct (lookup _ _); reflexivity. Qed.
  Lemma table_model : forall x t k, children_named "TableBody" x = [t] -> attr "cellspacing" t = Some (fmt_d (Z.of_nat k)) ->
    says_itself (style_of_table measure x) "style:table-properties" "table:border-model" = Some (zs (if Nat.eqb k 0 then "collapsing" else "separating")).
  Proof.
    intros x t k B A. erewrite itself_one by reflexivity. rewrite lookup_app, B. cbn [existsb]. unfold compares, number_of. rewrite A, number_fmt.
    destruct (attr_is "width-relto" "absolute" x); destruct k as [|k]; try reflexivity; (replace (0 =? Z.of_nat (S k)) with false by lia); reflexivity.
  Qed.
  Lemma table_width : forall x, attr "width-relto" x = Some (zs "absolute") -> says_itself (style_of_table measure x) "style:table-properties" "style:width" = Some (measure "width" x).
  Proof. intros x A. erewrite itself_one by reflexivity. apply attr_is_spec in A. rewrite A. reflexivity. Qed.
  Definition cell_paddings (c : xnode) : list (list Z * list Z) :=
    [put "fo:padding-left" (measure "padding-left" c); put "fo:padding-right" (measure "padding-right" c);
     put "fo:padding-top" (measure "padding-top" c); put "fo:padding-bottom" (measure "padding-bottom" c)].
  Lemma cell_padding : forall c side, In side sides -> says_itself (style_of_cell measure document [] c) "style:table-cell-properties" ("fo:padding-" ++ side) = Some (measure ("padding-" ++ side)%string c).
  Proof. intros c side I. erewrite itself_one by reflexivity. repeat (destruct I as [<-|I]; [reflexivity|]). contradiction. Qed.
  Lemma no_border : forall prop side x, zs prop <> zs ("fo:border-" ++ side) -> lookup (zs prop) (border_attribute side x) = None.
  Proof.
    intros prop side x N. unfold border_attribute. induction (filter _ _) as [|f r IH]; [reflexivity|]. cbn [map lookup put]. destruct (list_eq_dec Z.eq_dec (zs prop) (zs ("fo:border-" ++ side))); [contradiction|exact IH].
  Qed.
  Definition border_text (o : xnode) : list Z := value_of "width" o ++ zs " " ++ value_of "stroke-type" o ++ zs " " ++ value_of "color" o.
  Lemma border_found : forall side x o, border side x = [o] -> border_attribute side x = [put ("fo:border-" ++ side) (border_text o)].
  Proof.
    intros side x o E. unfold border_attribute. rewrite (filter_and (named_node "Border") (attr_is "attribute-name" side)), <- children_filter.
    enough (F : filter (attr_is "attribute-name" side) (children_named "Border" x) = [o]) by (rewrite F; reflexivity). rewrite <- E. unfold border. apply filter_ext. intros y. unfold attr_is.
    destruct (attr "attribute-name" y) as [t|]; reflexivity.
  Qed.
  Lemma lookup_put : forall s v, lookup (zs s) [put s v] = Some v.
  Proof. intros s v. cbn [lookup put]. destruct (list_eq_dec Z.eq_dec (zs s) (zs s)); [reflexivity|contradiction]. Qed.
  Lemma cell_border : forall c bf side o, refers1 "borderfill-id" c (children_named "BorderFill" m) bf -> In side sides -> border side bf = [o] ->
    says_itself (style_of_cell measure document [] c) "style:table-cell-properties" ("fo:border-" ++ side) = Some (border_text o).
  Proof.
    intros c bf side o R I E. erewrite itself_one by reflexivity. rewrite (mapping_found1 document m d b T _ _ _ _ R). cbn [flat_map]. rewrite app_nil_r, lookup_app.
    assert (P : lookup (zs ("fo:border-" ++ side)) (cell_paddings c) = None) by (repeat (destruct I as [<-|I]; [reflexivity|]); contradiction).
    unfold cell_paddings in P. rewrite P, !lookup_app. pose proof (border_found side bf o E) as F.
    repeat (destruct I as [<-|I]; [rewrite F; repeat (rewrite no_border by discriminate); rewrite lookup_put; reflexivity|]). contradiction.
  Qed.
  Lemma cell_background : forall c bf l, refers1 "borderfill-id" c (children_named "BorderFill" m) bf -> children_named "FillColorPattern" bf = l -> (List.length l <= 1)%nat ->
    says_itself (style_of_cell measure document [] c) "style:table-cell-properties" "fo:background-color" = match l with f :: _ => Some (value_of "background-color" f) | [] => None end.
  Proof.
    intros c bf l R E L. erewrite itself_one by reflexivity. rewrite (mapping_found1 document m d b T _ _ _ _ R). cbn [flat_map]. rewrite app_nil_r, !lookup_app, E.
    change (lookup (zs "fo:background-color") (_ :: _ :: _ :: _ :: [])) with (@None (list Z)). repeat (rewrite no_border by discriminate). destruct l as [|f [|]]; [reflexivity|reflexivity|cbn in L; lia].
  Qed.

  (** Drawings. *)
  Lemma write_shape : forall up x kind name, In (kind, name) drawings -> named_node "ShapeComponent" x = true -> attr "chid" x = Some (zs kind) -> exists attrs kids,
    write geometry document up x = [elem name (put "draw:style-name" (shape_name x) :: attrs) kids].
  Proof.
    intros up [n a kids|t] kind name I N A; [|discriminate]. cbn [named_node] in N. apply name_is_spec in N. subst n. cbn [write].
    repeat match goal with |- context [name_is ?s (zs "ShapeComponent")] => let v := eval vm_compute in (name_is s (zs "ShapeComponent")) in change (name_is s (zs "ShapeComponent")) with v end.
    cbn [orb andb]. cbv iota. rewrite !(attr_is_other _ _ _ _ A).
    repeat (destruct I as [[= <- <-]|I]; [eexists _, _; reflexivity|]). contradiction.
  Qed.
  Lemma drawing_says : forall x y prop, In x (in_text "ShapeComponent" b) -> value_of "draw:style-name" y = shape_name x -> exists place,
    (forall q, In q ["draw:fill"; "draw:fill-color"; "svg:stroke-color"; "svg:stroke-width"; "draw:stroke"] -> lookup (zs q) place = None) /\
    drawing_property styles y prop = lookup (zs prop) (place ++ fill x ++ outline measure x).
  Proof.
    intros x y prop I E. destruct (text_path _ _ I) as (path & J & P).
    exists (match path with _ :: o :: _ => if named_node "GShapeObjectControl" o then placement measure o else [] | _ => [] end). split.
    - intros q Q. destruct path as [|p [|o r]]; try reflexivity. destruct (named_node "GShapeObjectControl" o); [|reflexivity]. unfold placement.
      repeat (destruct Q as [<-|Q]; [rewrite !lookup_app; repeat match goal with |- context [if ?c then ?u else ?v] => match type of u with list _ => destruct c end end; reflexivity|]). contradiction.
    - unfold drawing_property. rewrite E, (styles_are measure geometry document m d b T).
      assert (K : In (style_of_shape measure path) (all_styles measure document d b)) by (unfold all_styles, automatic_styles; apply in_or_app; left; do 3 (apply in_or_app; right); apply in_map; exact J).
      rewrite (effective_step _ _ _ _ _ _ _ (style_alone measure document m d b T "graphic" (shape_name x) _ K ltac:(rewrite <- P; reflexivity))).
      erewrite itself_one by reflexivity. rewrite P. destruct (lookup _ _); reflexivity.
  Qed.
  Lemma drawn : forall up x kind name, In x (in_text "ShapeComponent" b) -> In (kind, name) drawings -> attr "chid" x = Some (zs kind) -> exists y,
    write geometry document up x = [y] /\ named_node name y = true /\
    (forall f, attr "fill-colorpattern" x = Some (zs "1") -> children_named "FillColorPattern" x = [f] ->
       drawing_property styles y "draw:fill" = Some (zs "solid") /\ drawing_property styles y "draw:fill-color" = Some (value_of "background-color" f)) /\
    (attr "fill-colorpattern" x = Some (zs "0") -> drawing_property styles y "draw:fill" = Some (zs "none")) /\
    (forall l, children_named "BorderLine" x = [l] ->
       drawing_property styles y "svg:stroke-color" = Some (value_of "color" l) /\ drawing_property styles y "svg:stroke-width" = Some (measure "stroke-width" l)).
  Proof.
    intros up x kind name I D A. destruct (write_shape up x kind name D (text_named _ _ I) A) as (attrs & kids & W). eexists. split; [exact W|].
    assert (V : value_of "draw:style-name" (elem name (put "draw:style-name" (shape_name x) :: attrs) kids) = shape_name x) by reflexivity.
    set (y := elem name (put "draw:style-name" (shape_name x) :: attrs) kids) in *. split; [unfold y; cbn [named_node elem]; apply name_is_spec; reflexivity|].
    assert (Fill : forall l, fill x = l -> forall prop, In prop ["draw:fill"; "draw:fill-color"] -> forall v, lookup (zs prop) l = Some v -> drawing_property styles y prop = Some v).
    { intros l F prop Q v L. destruct (drawing_says x y prop I V) as (place & N & ->). rewrite lookup_app, N by (destruct Q as [<-|[<-|[]]]; cbn; auto). rewrite lookup_app, F, L. reflexivity. }
    assert (NoFill : forall prop, In prop ["svg:stroke-color"; "svg:stroke-width"] -> lookup (zs prop) (fill x) = None).
    { intros prop Q. unfold fill. destruct (compares _ _ _); repeat (destruct Q as [<-|Q]; [reflexivity|]); contradiction. }
    split; [|split].
    - intros f B F. assert (G : fill x = [puts "draw:fill" "solid"; put "draw:fill-color" (value_of "background-color" f)]) by (unfold fill, compares, number_of; rewrite B, F; reflexivity).
      split; (eapply Fill; [exact G|cbn; auto|reflexivity]).
    - intros B. assert (G : fill x = [puts "draw:fill" "none"]) by (unfold fill, compares, number_of; rewrite B; reflexivity). eapply Fill; [exact G|cbn; auto|reflexivity].
    - intros l B. split; (edestruct (drawing_says x y) as (place & N & ->); [exact I|exact V|]); rewrite lookup_app, N by (cbn; auto); rewrite lookup_app, NoFill by (cbn; auto); unfold outline; rewrite B; reflexivity.
  Qed.
  Lemma picture : forall up x pic info bd e, named_node "ShapeComponent" x = true -> attr "chid" x = Some (zs "$pic") -> children_named "ShapePicture" x = [pic] ->
    children_named "PictureInfo" pic = [info] -> refers1 "bindata-id" info (children_named "BinData" m) bd -> attr "storage" bd = Some (zs "embedding") ->
    children_named "BinDataEmbedding" bd = [e] -> attr "inline" e <> Some (zs "true") -> exists y i, write geometry document up x = [y] /\ kids_of_node y = [i] /\ named_node "draw:image" i = true /\
    attr "xlink:href" i = Some (zs "bindata/" ++ value_of "storage-id" e ++ zs "." ++ value_of "ext" e).
  Proof.
    intros up [n a kids|t] pic info bd e N A P I R S E O; [|discriminate]. cbn [named_node] in N. apply name_is_spec in N. subst n.
    exists (elem "draw:frame" (put "draw:style-name" (shape_name (Element (zs "ShapeComponent") a kids)) :: geometry (Element (zs "ShapeComponent") a kids :: up)) [image document pic]), (image document pic).
    split; [|split; [reflexivity|split; [reflexivity|]]].
    - cbn [write]. repeat match goal with |- context [name_is ?s (zs "ShapeComponent")] => let v := eval vm_compute in (name_is s (zs "ShapeComponent")) in change (name_is s (zs "ShapeComponent")) with v end.
      cbn [orb andb]. cbv iota. rewrite !(attr_is_other _ _ _ _ A). change (name_is "$con" (zs "$pic")) with false. change (name_is "$pic" (zs "$pic")) with true. cbv iota. rewrite P. reflexivity.
    - unfold image. rewrite I, (mapping_found1 document m d b T _ _ _ _ R). cbn [existsb flat_map]. apply attr_is_spec in S. rewrite S, E. cbn [orb app flat_map]. rewrite (attr_is_not _ _ _ O). reflexivity.
  Qed.

  (** Pages. *)
  Lemma sections_are : sections document = children_named "SectionDef" b.
  Proof. unfold sections, body_texts. rewrite (ot_document _ _ _ _ T). cbn [flat_map]. rewrite (ot_body _ _ _ _ T). cbn [app flat_map]. apply app_nil_r. Qed.
  Lemma styles_xml_is : exists x, styles_xml measure document = [x] /\ flat_map kids_of_node (children_named "office:automatic-styles" x) = map (page_layout measure) (children_named "SectionDef" b) /\
    flat_map kids_of_node (children_named "office:master-styles" x) = map master_page (children_named "SectionDef" b).
  Proof.
    unfold styles_xml. rewrite (ot_document _ _ _ _ T), sections_are. cbn [map]. eexists. split; [reflexivity|]. split; cbn; apply app_nil_r.
  Qed.
  Lemma name_alone : forall (f : xnode -> xnode) (kind prefix : string) l s k, Forall (fun s => exists k, attr "section-id" s = Some (fmt_d (Z.of_nat k))) l -> NoDup (map (attr "section-id") l) ->
    (forall s, named_node kind (f s) = true /\ attr "style:name" (f s) = Some (zs prefix ++ number_text (plus_one (number_of "section-id" s)))) ->
    In s l -> attr "section-id" s = Some (fmt_d (Z.of_nat k)) ->
    filter (fun x => named_node kind x && is_attr "style:name" (zs prefix ++ fmt_d (Z.of_nat (S k))) x) (map f l) = [f s].
  Proof.
    intros f kind prefix l s k F N H I A. rewrite filter_map. rewrite (filter_ext_in _ (fun y => text_eqb (value_of "section-id" y) (fmt_d (Z.of_nat k)))).
    - induction l as [|y r IH]; [contradiction|]. cbn [map] in N. apply NoDup_cons_iff in N as [N1 N2]. inversion F as [|? ? Fy Fr]; subst. cbn [filter]. destruct I as [->|I].
      + replace (text_eqb (value_of "section-id" s) (fmt_d (Z.of_nat k))) with true by (unfold value_of; rewrite A, text_eqb_refl; reflexivity). cbn [map]. f_equal.
        rewrite filter_none; [reflexivity|]. intros z Iz. apply text_eqb_not. intros E. rewrite Forall_forall in Fr. destruct (Fr z Iz) as (j & J). unfold value_of in E. rewrite J in E.
        apply N1. rewrite A, <- E, <- J. apply in_map. exact Iz.
      + rewrite text_eqb_not; [exact (IH Fr N2 I)|]. intros E. destruct Fy as (j & J). unfold value_of in E. rewrite J in E. apply N1. rewrite J, E, <- A. apply in_map. exact I.
    - intros y Iy. rewrite Forall_forall in F. destruct (F y Iy) as (j & J). destruct (H y) as [H1 H2]. rewrite H1. unfold is_attr, value_of. rewrite H2, J, (number_text_is _ _ _ J). cbn [andb].
      destruct (text_eqb (fmt_d (Z.of_nat j)) (fmt_d (Z.of_nat k))) eqn:E.
      + apply text_eqb_spec, fmt_inj in E. subst j. apply text_eqb_refl.
      + apply text_eqb_not. intros G. apply app_inv_head, fmt_inj in G. injection G as ->. rewrite text_eqb_refl in E. discriminate.
  Qed.
  Lemma page_of_section : forall s pd k, Forall (fun s => exists k, attr "section-id" s = Some (fmt_d (Z.of_nat k))) (children_named "SectionDef" b) ->
    NoDup (map (attr "section-id") (children_named "SectionDef" b)) -> In s (children_named "SectionDef" b) -> attr "section-id" s = Some (fmt_d (Z.of_nat k)) -> children_named "PageDef" s = [pd] ->
    exists lay mas, page_layouts (zs "PageLayout-" ++ fmt_d (Z.of_nat (S k))) (styles_xml measure document) = [lay] /\
      master_pages (zs "MasterPage-" ++ fmt_d (Z.of_nat (S k))) (styles_xml measure document) = [mas] /\
      attr "style:page-layout-name" mas = Some (zs "PageLayout-" ++ fmt_d (Z.of_nat (S k))) /\
      (forall side, In side sides -> says_itself lay "style:page-layout-properties" ("fo:margin-" ++ side) = Some (measure (side ++ "-offset")%string pd)) /\
      (attr "orientation" pd = Some (zs "portrait") -> says_itself lay "style:page-layout-properties" "fo:page-width" = Some (measure "width" pd) /\
         says_itself lay "style:page-layout-properties" "fo:page-height" = Some (measure "height" pd)) /\
      (attr "orientation" pd = Some (zs "landscape") -> says_itself lay "style:page-layout-properties" "fo:page-width" = Some (measure "height" pd) /\
         says_itself lay "style:page-layout-properties" "fo:page-height" = Some (measure "width" pd)).
  Proof.
    intros s pd k F N I A P. exists (page_layout measure s), (master_page s). destruct styles_xml_is as (x & -> & E1 & E2).
    unfold page_layouts, master_pages. cbn [flat_map]. rewrite !app_nil_r, E1, E2.
    split; [apply (name_alone (page_layout measure) "style:page-layout" "PageLayout-" _ s k F N); [intros; split; reflexivity|exact I|exact A]|].
    split; [apply (name_alone master_page "style:master-page" "MasterPage-" _ s k F N); [intros; split; reflexivity|exact I|exact A]|].
    split; [cbn [attr master_page elem]; rewrite <- (number_text_is _ _ _ A); reflexivity|].
    assert (Q : forall prop, says_itself (page_layout measure s) "style:page-layout-properties" prop = lookup (zs prop) (page_attributes measure pd)).
    { intros prop. unfold page_layout, says_itself. rewrite P. cbn [map app].
      change (first_of [attr prop (elem "style:page-layout-properties" (page_attributes measure pd) [elem "style:footnote-sep" [] []])] = lookup (zs prop) (page_attributes measure pd)).
      cbn [first_of attr elem]. destruct (lookup _ _); reflexivity. }
    rewrite !Q. unfold page_attributes. split; [|split].
    - intros side J. rewrite Q. unfold page_attributes. rewrite !lookup_app.
      repeat (destruct J as [<-|J]; [destruct (attr_is "orientation" "portrait" pd); [reflexivity|]; destruct (attr_is "orientation" "landscape" pd); reflexivity|]). contradiction.
    - intros O. rewrite !(attr_is_other _ _ _ _ O). split; reflexivity.
    - intros O. rewrite !(attr_is_other _ _ _ _ O). split; reflexivity.
  Qed.
End Parts.
