(** Property theorem about the whole section pipeline: C34. *)
From Coq Require Import ZArith String List Bool Lia.
From Verif Require Import Base Model_Tree Spec_Tree Model_ParaText Spec_ParaText Model_Shape Spec_Shape Model_Lang Model_Classes
  Model_XmlModel Spec_XmlModel Spec_Section Proof_Tree Proof_Section.
Import ListNotations.
Open Scope string_scope.
Open Scope list_scope.
Open Scope Z_scope.

(** C34.  For every record tree of a section in the documented shape
    ([section_ok]) all passes end normally, what they emit is well nested, and it
    is the tree that the properties of the single passes describe, applied one
    after the other ([section_tree]). *)
Theorem C34_section : forall sid f, section_ok f ->
  exists g, section_tree sid f g /\ section_events sid (walk f, Finished) = (walk g, Finished).
Proof. exact section_pass. Qed.
Print Assumptions C34_section.

Theorem C34_well_nested : forall sid f, section_ok f ->
  snd (section_events sid (walk f, Finished)) = Finished /\ well_nested (fst (section_events sid (walk f, Finished))).
Proof. intros sid f H. destruct (section_pass sid f H) as (g & _ & ->). split; [reflexivity|]. now exists g. Qed.
Print Assumptions C34_well_nested.

(** The document is one element, the section definition with its number. *)
Theorem C34_one_section : forall sid f, section_ok f ->
  exists s k, is_sectiondef s = true /\
  section_events sid (walk f, Finished) = (walk (FCons (with_section_id sid s) k FNil), Finished).
Proof. exact section_single. Qed.
Print Assumptions C34_one_section.

(** A section with two columns, a table of two cells with a paragraph each, and a
    field that begins in one paragraph and ends in the next. *)
Definition s_el (m : string) (r : Z) : item := mkItem m r [].
Definition s_par (r split : Z) : item := mkItem "Paragraph" r [("split", VInt split)].
Definition s_leaf (x : item) : forest item := FCons x FNil FNil.
Definition s_trees (l : list (forest item)) : forest item := fold_right fapp FNil l.
Definition s_ctl (code : Z) (id : string) : chunk := ChCtl (CtlObj code (zs id) []).
Definition s_text (r : Z) (chunks : list ((Z * Z) * chunk)) : forest item :=
  s_trees [s_leaf (mkItem "ParaText" r [("chunks", VChunks chunks)]);
           s_leaf (mkItem "ParaCharShape" (r + 1) [("charshapes", VCharShapes [(0, 7)])]);
           s_leaf (mkItem "ParaLineSeg" (r + 2) [("linesegs", VLineSegs [[("chpos", 0)]])])].
Definition c34_cell (r : Z) (t : string) : forest item :=
  s_trees [s_leaf (mkItem "TableCell" r []); FCons (s_par (r + 1) 0) (s_text (r + 2) [((0, 1), ChText (zs t))]) FNil].
Definition c34_case : forest item :=
  s_trees
    [FCons (s_par 1 3)
       (s_trees
          [s_text 2 [((0, 8), s_ctl 2 "secd"); ((8, 16), s_ctl 2 "cold"); ((16, 24), s_ctl 11 "tbl "); ((24, 32), s_ctl 3 "%clk"); ((32, 33), ChText (zs "a"))];
           FCons (s_el "SectionDef" 10) (s_leaf (s_el "PageDef" 11)) FNil;
           s_leaf (s_el "ColumnsDef" 12);
           FCons (s_el "TableControl" 13)
             (s_trees [s_leaf (mkItem "TableBody" 14 [("rowcols", VInts [2])]); c34_cell 20 "x"; c34_cell 30 "y"]) FNil;
           s_leaf (s_el "FieldClickHere" 40)]) FNil;
     FCons (s_par 50 0) (s_text 51 [((0, 1), ChText (zs "b")); ((1, 9), s_ctl 4 "klc%"); ((9, 10), ChText (zs "c"))]) FNil].
Definition s_tok (t : string) : forest item := s_leaf (a_token (VInt 7) "en" (zs t)).
Definition s_line (f : forest item) : forest item := FCons (mkItem "LineSeg" 0 [("chpos", VInt 0)]) f FNil.

Ltac one_para := eexists; exists (0, 7), [], (0, (0, [("chpos", 0)])), []; constructor;
  [reflexivity|eexists; split; reflexivity|eexists; repeat split; reflexivity|cbn; lia|cbn; lia
  |split; repeat (apply Forall_cons; [first [left; eexists; reflexivity|right; repeat (apply Forall_cons; [cbn; lia|]); apply Forall_nil]|]); apply Forall_nil
  |repeat (apply Forall_cons; [first [exact I|eexists; reflexivity]|]); apply Forall_nil].
Example C34_case : section_ok c34_case /\
  section_events (Some 0) (walk c34_case, Finished) =
  (walk (FCons (mkItem "SectionDef" 10 [("section_id", VInt 0)])
     (s_trees
        [s_leaf (s_el "PageDef" 11);
         FCons a_columnset
           (s_trees
              [FCons (s_par 1 3)
                 (s_line (s_trees
                    [s_leaf (s_el "ColumnsDef" 12);
                     FCons (s_el "TableControl" 13)
                       (FCons (s_el "TableBody" 14)
                          (FCons (s_el "TableRow" 0)
                             (s_trees [FCons (s_el "TableCell" 20) (FCons (s_par 21 0) (s_line (s_tok "x")) FNil) FNil;
                                       FCons (s_el "TableCell" 30) (FCons (s_par 31 0) (s_line (s_tok "y")) FNil) FNil]) FNil) FNil) FNil;
                     FCons (s_el "FieldClickHere" 40) (s_tok "a") FNil])) FNil;
               FCons (s_par 50 0) (s_line (s_trees [FCons (s_el "FieldClickHere" 40) (s_tok "b") FNil; s_tok "c"])) FNil]) FNil]) FNil), Finished).
Proof.
  split; [|vm_compute; reflexivity]. constructor; [reflexivity| |exists (s_el "SectionDef" 10); split; [vm_compute; tauto|reflexivity]].
  assert (HT : forall r chunks, shaped true (s_text r chunks)) by (intros r chunks; cbn; repeat split; left; now split).
  assert (HC : siblings (roots (s_trees [s_leaf (mkItem "TableBody" 14 [("rowcols", VInts [2])]); c34_cell 20 "x"; c34_cell 30 "y"]))).
  { apply (sib_table (mkItem "TableBody" 14 [("rowcols", VInts [2])]) [(mkItem "TableCell" 20 [], [s_par 21 0]); (mkItem "TableCell" 30 [], [s_par 31 0])] []);
      [reflexivity|repeat constructor|reflexivity|constructor]. }
  split; [|split; [|exact I]].
  - split; [split; [now exists 3|]; split; [one_para|reflexivity]|].
    repeat (split; [first [left; split; reflexivity|right]|]); try exact I.
    + split; [split; [|exact I]; split; [now left|]; split; [exact I|constructor]|]. split; [repeat constructor|reflexivity].
    + split; [exact I|]. split; [constructor|reflexivity].
    + split; [|split; [exact HC|reflexivity]].
      split; [split; [reflexivity|]; exists [2]; split; [reflexivity|repeat constructor; lia]|].
      split; [split; [now right|]; split; [exact I|constructor]|].
      split; [split; [split; [now exists 0|]; split; [one_para|reflexivity]|apply HT]|].
      split; [split; [now right|]; split; [exact I|constructor]|].
      split; [split; [split; [now exists 0|]; split; [one_para|reflexivity]|apply HT]|exact I].
    + split; [exact I|]. split; [constructor|reflexivity].
  - split; [split; [now exists 0|]; split; [one_para|reflexivity]|apply HT].
Qed.
