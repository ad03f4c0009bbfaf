(** Property theorems about the event passes: C27-C33, C62. *)
From Coq Require Import ZArith String List Bool Lia.
From Verif Require Import Base Model_Tree Spec_Tree Model_ParaText Spec_ParaText Model_Shape Spec_Shape Model_Lang Model_Classes
  Model_XmlModel Spec_XmlModel Proof_Tree Proof_XmlModel Proof_XmlInline Proof_XmlFields Proof_XmlTexts.
Import ListNotations.
Open Scope string_scope.
Open Scope list_scope.
Open Scope Z_scope.

(** Elements and trees for the cases. *)
Definition el (m : string) (r : Z) : item := mkItem m r [].
Definition leaf (x : item) : forest item := FCons x FNil FNil.
Definition node (x : item) (k : forest item) : forest item := FCons x k FNil.
Definition trees (l : list (forest item)) : forest item := fold_right fapp FNil l.
Definition ext (r : Z) : item := mkItem "ControlChar" r [("name", VText (zs "X")); ("kind", VKind KExtended)].
Definition fend (r : Z) : item := mkItem "ControlChar" r [("name", VText (zs "FIELD_END")); ("kind", VKind KInline)].
Definition txt (t : string) : item := mkItem "Text" 0 [("text", VText (zs t)); ("charshape_id", VInt 0)].

(** C27.  In trees with control characters and controls in paragraphs only, the
    n-th extended control character becomes the n-th control, inside out, and
    everything else stays ([inlined]).  Where there are too few controls
    ([inlined f = None]) the pass fails. *)
Theorem C27_controls_inline : forall f, inline_ok f ->
  match inlined f with
  | Some f' => make_extended_controls_inline (walk f, Finished) = (walk f', Finished)
  | None => exists out e, make_extended_controls_inline (walk f, Finished) = (out, Failed e) /\ (e = AttributeError \/ e = IndexError)
  end.
Proof. exact inline_pass. Qed.
Print Assumptions C27_controls_inline.

(** Which elements are controls. *)
Theorem C27_control_classes : forall x, is_ctl x = true <-> In (i_model x) (field_classes ++ other_control_classes).
Proof. intros x. apply class_test; [apply in_or_app; right; now left|vm_compute; reflexivity|vm_compute; reflexivity]. Qed.
Print Assumptions C27_control_classes.

(** A text box in a table in a paragraph, after an inline character, and a
    control that is not used. *)
Definition c27_case : forest item :=
  node (el "Paragraph" 1)
    (trees [leaf (el "ColumnsDef" 2);
            node (el "TableControl" 3)
              (trees [leaf (el "TableBody" 4); leaf (el "TableCell" 5);
                      node (el "Paragraph" 6) (trees [leaf (el "Header" 7); node (el "LineSeg" 8) (leaf (ext 9))])]);
            leaf (el "PageHide" 10);
            node (el "LineSeg" 11) (trees [leaf (txt "a"); leaf (ext 12); leaf (fend 13); leaf (ext 14)])]).
Example C27_case : inline_ok c27_case /\ inlined c27_case = Some
  (node (el "Paragraph" 1)
    (node (el "LineSeg" 11) (trees [leaf (txt "a"); leaf (el "ColumnsDef" 2); leaf (fend 13);
       node (el "TableControl" 3)
         (trees [leaf (el "TableBody" 4); leaf (el "TableCell" 5);
                 node (el "Paragraph" 6) (node (el "LineSeg" 8) (leaf (el "Header" 7)))])]))).
Proof.
  split; [apply inline_okb_sound|]; vm_compute; reflexivity.
Qed.

(** C28.  A list header takes over the run of paragraphs that follows it. *)
Theorem C28_paragraphs_in_list_headers : forall f, forallb (fun x => negb (is_listheader x)) (roots f) = true ->
  make_paragraphs_children_of_listheader (walk f, Finished) = (walk (adopt is_listheader is_para f), Finished).
Proof. exact listheader_pass. Qed.
Print Assumptions C28_paragraphs_in_list_headers.

(** The same for table bodies and cells. *)
Theorem C28_cells_in_table_bodies : forall f, forallb (fun x => negb (model_sub "TableBody" x)) (roots f) = true ->
  make_cells_children_of_tablebody (walk f, Finished) = (walk (adopt (model_sub "TableBody") is_tablecell f), Finished).
Proof. exact tablebody_pass. Qed.
Print Assumptions C28_cells_in_table_bodies.

(** Neither changes the order of the elements. *)
Theorem C28_order : forall isparent ischild f, starts (walk (adopt isparent ischild f)) = starts (walk f).
Proof. exact adopt_order. Qed.
Print Assumptions C28_order.

(** Which elements are list headers, and which are table bodies. *)
Theorem C28_list_header_classes : forall x,
  (is_listheader x = true <-> In (i_model x) list_header_classes) /\ (model_sub "TableBody" x = true <-> i_model x = "TableBody").
Proof.
  intros x. split; [apply class_test; [now left|vm_compute; reflexivity|vm_compute; reflexivity]|].
  unfold model_sub. rewrite (class_test "TableBody" ["TableBody"]); [|now left|vm_compute; reflexivity|vm_compute; reflexivity]. cbn. intuition.
Qed.
Print Assumptions C28_list_header_classes.

(** A list header at the top level is never closed. *)
Theorem C28_top_level_refuted : exists f, ~ (exists f', make_paragraphs_children_of_listheader (walk f, Finished) = (walk f', Finished)).
Proof.
  exists (leaf (el "ListHeader" 1)). intros (f' & H). cbn in H. injection H as H. destruct f' as [|x k n]; [discriminate|]. cbn [walk] in H. injection H as _ H.
  destruct (walk k); discriminate.
Qed.
Print Assumptions C28_top_level_refuted.

Example C28_case :
  adopt is_listheader is_para
    (node (el "TableControl" 1) (trees [leaf (el "TableBody" 2); leaf (el "TableCell" 3); leaf (el "Paragraph" 4);
       node (el "Paragraph" 5) (trees [leaf (el "ListHeader" 6); leaf (el "Paragraph" 7); leaf (el "Text" 8); leaf (el "Paragraph" 9)]);
       leaf (el "TableCell" 10); leaf (el "Paragraph" 11)])) =
  node (el "TableControl" 1) (trees [leaf (el "TableBody" 2);
       node (el "TableCell" 3) (trees [leaf (el "Paragraph" 4);
         node (el "Paragraph" 5) (trees [node (el "ListHeader" 6) (leaf (el "Paragraph" 7)); leaf (el "Text" 8); leaf (el "Paragraph" 9)])]);
       node (el "TableCell" 10) (leaf (el "Paragraph" 11))]).
Proof. vm_compute. reflexivity. Qed.

(** C29.  Fields and field ends in lines: a field takes what follows it in the
    line until its end, and is opened again in the lines that follow until its
    end. *)
Theorem C29_fields : forall f, fields_ok [] None f ->
  match_field_start_end (walk f, Finished) = (walk (fst (regroup [] None f)), Finished).
Proof. exact fields_pass. Qed.
Print Assumptions C29_fields.

(** Whatever the nesting, all other events stay. *)
Theorem C29_other_events : forall evs o, Forall (fun e => named (item_of e)) evs ->
  filter not_field_event (fst (match_field_start_end (evs, o))) = filter not_field_event evs /\ snd (match_field_start_end (evs, o)) = o.
Proof. intros evs o H. apply (fields_keep_others evs [] o H). constructor. Qed.
Print Assumptions C29_other_events.

Theorem C29_field_classes : forall x, is_field x = true <-> In (i_model x) field_classes.
Proof. intros x. apply class_test; [now left|vm_compute; reflexivity|vm_compute; reflexivity]. Qed.
Print Assumptions C29_field_classes.

(** The end of a field in a line inside the field: not well nested. *)
Definition c29_bad : forest item :=
  node (el "LineSeg" 1) (trees [leaf (el "FieldDate" 2); node (el "TableControl" 3) (node (el "LineSeg" 4) (leaf (fend 5)))]).
Theorem C29_nested_end_refuted :
  exists f, Forall (fun e => named (item_of e)) (walk f) /\ ~ well_nested (fst (match_field_start_end (walk f, Finished))).
Proof.
  exists c29_bad. split.
  - repeat (constructor; [intros H; try discriminate H; eexists; reflexivity|]). constructor.
  - intros (g & H). apply (f_equal (@List.length _)) in H. rewrite (walk_length g) in H. assert (HL : List.length (fst (match_field_start_end (walk c29_bad, Finished))) = 9%nat) by (vm_compute; reflexivity). lia.

Qed.
Print Assumptions C29_nested_end_refuted.

(** A hyperlink over two lines with a bookmark field inside. *)
Definition c29_case : forest item :=
  node (el "Paragraph" 1) (trees
    [node (el "LineSeg" 2) (trees [leaf (txt "a"); leaf (el "FieldHyperLink" 3); leaf (txt "b"); leaf (el "FieldBookmark" 4); leaf (txt "c")]);
     node (el "LineSeg" 5) (trees [leaf (txt "d"); leaf (fend 6); leaf (txt "e"); leaf (fend 7); leaf (txt "f")])]).
Example C29_case : fields_ok [] None c29_case /\ regroup [] None c29_case =
  (node (el "Paragraph" 1) (trees
    [node (el "LineSeg" 2) (trees [leaf (txt "a");
       node (el "FieldHyperLink" 3) (trees [leaf (txt "b"); node (el "FieldBookmark" 4) (leaf (txt "c"))])]);
     node (el "LineSeg" 5) (trees
       [node (el "FieldHyperLink" 3) (trees [node (el "FieldBookmark" 4) (leaf (txt "d")); leaf (txt "e")]); leaf (txt "f")])]), []).
Proof.
  split; [|vm_compute; reflexivity]. vm_compute. repeat split; try (intros H; discriminate H); intros _; eexists; reflexivity.
Qed.

(** C30.  The cells of each table body are put into the declared rows. *)
Theorem C30_rows : forall f, tables_ok f -> restructure_tablebody (walk f, Finished) = (walk (with_rows f), Finished).
Proof. exact rows_pass. Qed.
Print Assumptions C30_rows.

Definition body (rows : list Z) : item := mkItem "TableBody" 1 [("rows", VInt 2); ("rowcols", VInts rows)].
Definition cells (l : list Z) : forest item := trees (map (fun r => leaf (el "TableCell" r)) l).
Example C30_case :
  let inner := node (body [1; 2]) (cells [21; 22; 23]) in
  let f := node (el "TableControl" 0) (node (body [2; 1]) (trees [cells [11]; node (el "TableCell" 12) inner; cells [13]])) in
  tables_ok f /\
  with_rows f = node (el "TableControl" 0) (node (mkItem "TableBody" 1 [("rows", VInt 2)])
    (trees [node a_row (trees [cells [11]; node (el "TableCell" 12)
                (node (mkItem "TableBody" 1 [("rows", VInt 2)]) (trees [node a_row (cells [21]); node a_row (cells [22; 23])]))]);
            node a_row (cells [13])])).
Proof.
  cbn zeta. split; [|vm_compute; reflexivity]. split; [reflexivity|]. vm_compute. repeat split; try (eexists; reflexivity); repeat constructor; discriminate.
Qed.

(** A row declared with no cells takes two. *)
Theorem C30_empty_row_refuted :
  exists f, everywhere (fun x k => is_tablebody x = true -> Z.of_nat (flen k) = zsum (rowcols_of x)) f /\
    restructure_tablebody (walk f, Finished) =
      (walk (node (del_item "rowcols" (body [0; 2])) (node a_row (cells [1; 2]))), Finished) /\
    with_rows f = node (del_item "rowcols" (body [0; 2])) (trees [leaf a_row; node a_row (cells [1; 2])]).
Proof. exists (node (body [0; 2]) (cells [1; 2])). split; [|split; vm_compute; reflexivity]. vm_compute. repeat split; intros H; discriminate H. Qed.
Print Assumptions C30_empty_row_refuted.

(** A cell too many fails; with a cell too few the row is not closed. *)
Theorem C30_cell_counts_refuted :
  (exists f out, everywhere (fun x k => is_tablebody x = true -> Z.of_nat (flen k) > zsum (rowcols_of x)) f /\
     restructure_tablebody (walk f, Finished) = (out, Failed IndexError)) /\
  (exists f out, everywhere (fun x k => is_tablebody x = true -> Z.of_nat (flen k) < zsum (rowcols_of x)) f /\
     restructure_tablebody (walk f, Finished) = (out, Finished) /\ ~ well_nested out).
Proof.
  split.
  - exists (node (body [1]) (cells [1; 2])). eexists. split; [|vm_compute; reflexivity]. vm_compute. repeat split; try discriminate; intros H; discriminate H.
  - exists (node (body [2]) (cells [1])). eexists. split; [|split; [vm_compute; reflexivity|]]. vm_compute. repeat split; try discriminate; intros H; discriminate H.
    intros (g & H). apply (f_equal (@List.length _)) in H. rewrite walk_length in H. cbn in H. lia.
Qed.
Print Assumptions C30_cell_counts_refuted.

(** C31.  The first section definition, with its children, goes to the front,
    everything else follows unchanged, and its end comes last. *)
Theorem C31_section : forall sid pre s kids post, no_sectiondef pre -> is_sectiondef s = true ->
  wrap_section sid (pre ++ EStart s :: walk kids ++ EEnd s :: post, Finished) =
  (map someev (EStart (with_section_id sid s) :: walk kids ++ pre ++ post ++ [EEnd (with_section_id sid s)]), Finished).
Proof. exact section_events_split. Qed.
Print Assumptions C31_section.

(** In terms of trees: the definition becomes the root. *)
Theorem C31_section_tree : forall sid f s sk f', extract_section f = Some (s, sk, f') ->
  wrap_section sid (walk f, Finished) = (map someev (walk (FCons (with_section_id sid s) (fapp sk f') FNil)), Finished).
Proof. exact section_pass. Qed.
Print Assumptions C31_section_tree.

(** Without a section definition all events are lost. *)
Theorem C31_no_section : forall sid evs, no_sectiondef evs -> wrap_section sid (evs, Finished) = ([EEnd None], Finished).
Proof. exact section_without_definition. Qed.
Print Assumptions C31_no_section.

Example C31_case :
  extract_section (trees [node (el "Paragraph" 1) (trees [leaf (el "Text" 2); node (el "SectionDef" 3) (leaf (el "PageDef" 4)); leaf (el "Text" 5)]); leaf (el "Paragraph" 6)]) =
  Some (el "SectionDef" 3, leaf (el "PageDef" 4), trees [node (el "Paragraph" 1) (trees [leaf (el "Text" 2); leaf (el "Text" 5)]); leaf (el "Paragraph" 6)]) /\
  with_section_id (Some 2) (el "SectionDef" 3) = mkItem "SectionDef" 3 [("section_id", VInt 2)].
Proof. vm_compute. split; reflexivity. Qed.

(** C32.  Column sets. *)
Theorem C32_columns : forall f, everywhere column_node f -> no_newcol f ->
  wrap_columns (map someev (walk f), Finished) = (walk (in_columns f), Finished).
Proof. exact columns_pass. Qed.
Print Assumptions C32_columns.

(** Nothing else is changed, and the paragraphs that begin a column definition
    are exactly the first children of the column sets. *)
Theorem C32_result : forall f, everywhere column_node f ->
  filter not_columns_event (walk (in_columns f)) = walk f /\ no_newcol (in_columns f) /\ everywhere columns_node (in_columns f).
Proof. intros f H. split; [now apply columns_keep|now apply columns_shape]. Qed.
Print Assumptions C32_result.

Definition par (r split : Z) : item := mkItem "Paragraph" r [("split", VInt split)].
Example C32_case :
  let f := node (el "SectionDef" 0) (trees [leaf (par 1 0); leaf (par 2 2); leaf (par 3 0); node (par 4 3) (node (el "TableControl" 5) (leaf (par 6 2))); leaf (par 7 4)]) in
  everywhere column_node f /\ no_newcol f /\
  in_columns f = node (el "SectionDef" 0) (trees [leaf (par 1 0);
    node a_columnset (trees [leaf (par 2 2); leaf (par 3 0)]);
    node a_columnset (trees [node (par 4 3) (node (el "TableControl" 5) (node a_columnset (leaf (par 6 2)))); leaf (par 7 4)])]).
Proof. cbn zeta. split; [|split; vm_compute; reflexivity]. vm_compute. repeat split; try discriminate; eexists; reflexivity. Qed.

(** A paragraph directly under a paragraph: not well nested.  A paragraph that
    begins a column definition at the top level: failure. *)
Theorem C32_nesting_refuted :
  (exists f out, no_newcol f /\ wrap_columns (map someev (walk f), Finished) = (out, Finished) /\ ~ well_nested out) /\
  (exists f, wrap_columns (map someev (walk f), Finished) = ([], Failed IndexError)).
Proof.
  split; [|exists (leaf (par 1 2)); reflexivity].
  exists (node (el "SectionDef" 0) (node (par 1 0) (leaf (par 2 2)))). eexists. split; [reflexivity|]. split; [vm_compute; reflexivity|].
  intros (g & H). destruct g as [|a ka na]; [discriminate H|]. cbn [walk] in H. injection H as _ H.
  destruct ka as [|b kb nb]; [discriminate H|]. cbn [walk app] in H. injection H as <- H. rewrite <- !app_assoc in H.
  destruct kb as [|c kc nc]; [discriminate H|]. cbn [walk app] in H. injection H as <- H. rewrite <- !app_assoc in H.
  destruct kc as [|d kd nd]; [discriminate H|]. cbn [walk app] in H. injection H as <- H. rewrite <- !app_assoc in H.
  destruct kd as [|e ke ne]; [|discriminate H]. cbn [walk app] in H. injection H as H.
  destruct nd as [|e ke ne]; [|discriminate H]. cbn [walk app] in H. discriminate H.
Qed.
Print Assumptions C32_nesting_refuted.

(** C33.  Ids are the only change ... *)
Theorem C33_ids : forall f, NoDup (map i_ref (filter has_id (starts (walk f)))) ->
  exists f', give_elements_unique_id (walk f, Finished) = (walk f', Finished) /\
    same_shape f f' /\ numbered [] (starts (walk f)) (starts (walk f')).
Proof. exact ids_pass. Qed.
Print Assumptions C33_ids.

(** ... and count each kind of element from 0 in document order. *)
Theorem C33_unique : forall kind name xs ys, In (kind, name) id_names -> numbered [] xs ys ->
  map (fun y => attr_get name (i_attrs y)) (filter (model_is kind) ys) =
  map (fun n => Some (VInt n)) (upto 0 (List.length (filter (model_is kind) xs))).
Proof. intros kind name xs ys. apply (numbered_counts kind name xs ys []). Qed.
Print Assumptions C33_unique.

Example C33_case :
  let f := trees [node (par 1 0) (node (el "TableControl" 2) (trees [leaf (par 3 0); leaf (el "ShapeComponent" 4)])); leaf (par 5 0)] in
  NoDup (map i_ref (filter has_id (starts (walk f)))) /\
  starts (fst (give_elements_unique_id (walk f, Finished))) =
    [mkItem "Paragraph" 1 [("split", VInt 0); ("paragraph_id", VInt 0)]; mkItem "TableControl" 2 [("table_id", VInt 0)];
     mkItem "Paragraph" 3 [("split", VInt 0); ("paragraph_id", VInt 1)]; mkItem "ShapeComponent" 4 [("shape_id", VInt 0)];
     mkItem "Paragraph" 5 [("split", VInt 0); ("paragraph_id", VInt 2)]].
Proof. cbn zeta. split; [|vm_compute; reflexivity]. vm_compute. repeat constructor; cbn; intuition discriminate. Qed.

(** C62.  The text, shape and line records of a paragraph become lines of text
    at its end. *)
Theorem C62_lines : forall f, para_items f = [] -> everywhere texts_node f ->
  exists f', with_lines f f' /\ make_texts_linesegmented_and_charshaped (walk f, Finished) = (walk f', Finished).
Proof. exact texts_pass. Qed.
Print Assumptions C62_lines.

(** The lines say exactly the characters and controls of the text, each with the
    line and the character shape in force at its position. *)
Theorem C62_exact : forall l lf chunks sh0 shapes ls0 lines q, para_lines l lf ->
  para_chunks l chunks -> para_shapes l ((0, sh0) :: shapes) -> para_segs l ((0, ls0) :: lines) ->
  adjacent 0 (plain_chunks chunks) q -> q <= 0x7fffffff ->
  Forall range_fits (plain_chunks chunks) -> Forall basic_only (plain_chunks chunks) ->
  lines_said lf = map as_said (concat (map (intended2 sh0 ((0, sh0) :: shapes) ls0 ((0, ls0) :: lines)) (plain_chunks chunks))).
Proof. exact lines_exact. Qed.
Print Assumptions C62_exact.

(** A paragraph without character shapes fails. *)
Theorem C62_no_shapes_refuted : exists f out, make_texts_linesegmented_and_charshaped (walk f, Finished) = (out, Failed TypeError).
Proof. exists (leaf (el "Paragraph" 1)). eexists. vm_compute. reflexivity. Qed.
Print Assumptions C62_no_shapes_refuted.

(** And texts are cut by language. *)
Theorem C62_tokens : forall f, everywhere text_node f -> tokenize_text_by_lang (walk f, Finished) = (walk (tokenized f), Finished).
Proof. exact tokens_pass. Qed.
Print Assumptions C62_tokens.

(** Two lines, two shapes, a tab; the second shape begins in the first line. *)
Definition c62_line (p : Z) : list (string * Z) := [("chpos", p); ("y", 10 * p)].
Definition c62_case : forest item :=
  node (el "Paragraph" 1) (trees
    [leaf (mkItem "ParaText" 2 [("chunks", VChunks [((0, 4), ChText (zs "abcd")); ((4, 12), ChCtl (CtlTab 9 0 0 0 [])); ((12, 14), ChText (zs "ef"))])]);
     leaf (mkItem "ParaCharShape" 3 [("charshapes", VCharShapes [(0, 7); (2, 8)])]);
     leaf (mkItem "ParaLineSeg" 4 [("linesegs", VLineSegs [c62_line 0; c62_line 3])])]).
Example C62_case :
  let f' := node (el "Paragraph" 1) (trees
    [node (mkItem "LineSeg" 0 [("chpos", VInt 0); ("y", VInt 0)]) (trees [leaf (a_text (zs "ab") 7); leaf (a_text (zs "c") 8)]);
     node (mkItem "LineSeg" 0 [("chpos", VInt 3); ("y", VInt 30)]) (trees [leaf (a_text (zs "d") 8); leaf (a_char 9 KInline 8); leaf (a_text (zs "ef") 8)])]) in
  para_items c62_case = [] /\ everywhere texts_node c62_case /\
  make_texts_linesegmented_and_charshaped (walk c62_case, Finished) = (walk f', Finished).
Proof.
  cbn zeta. split; [reflexivity|]. split; [|vm_compute; reflexivity].
  unfold c62_case; cbn [trees fold_right fapp leaf node everywhere]. repeat match goal with |- _ /\ _ => split end; try exact I; intros H; try discriminate H.
  exists [((0, 4), ChText (zs "abcd")); ((4, 12), ChCtl (CtlTab 9 0 0 0 [])); ((12, 14), ChText (zs "ef"))], (0, 7), [(2, 8)], (0, (0, c62_line 0)), [(3, (1, c62_line 3))].
  constructor; [reflexivity| | | | | | ].
  - eexists. split; reflexivity.
  - eexists. repeat split; reflexivity.
  - cbn. lia.
  - cbn. lia.
  - split; repeat (apply Forall_cons; [first [left; eexists; reflexivity | right; repeat (apply Forall_cons; [cbn; lia|]); apply Forall_nil]|]); apply Forall_nil.
  - repeat (apply Forall_cons; [first [exact I|eexists; reflexivity]|]). apply Forall_nil.
Qed.
