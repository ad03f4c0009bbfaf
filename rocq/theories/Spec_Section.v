(** The documented shape of a section, and what becomes of it.  The record tree
    of a section is a sequence of paragraphs; a paragraph holds its text records
    and the controls of its text; a control holds anything, in particular
    paragraphs again (tables, text boxes, footnotes). *)
From Coq Require Import ZArith String List Bool.
From Verif Require Import Base Model_Tree Spec_Tree Model_ParaText Spec_ParaText Model_Shape Spec_Shape Model_Lang Model_Classes Model_XmlModel Spec_XmlModel.
Import ListNotations.
Open Scope string_scope.
Open Scope list_scope.
Open Scope Z_scope.

(** Records that are not part of the text of a paragraph, not controls and not
    table bodies or cells. *)
Definition plain_record (x : item) : bool :=
  negb (is_para x || is_para_data x || is_ctl x || is_char x || is_lineseg x || is_text x || is_tablebody x || is_tablecell x
        || model_is "ColumnSet" x).

(** ** Tables: a table body is followed by the declared number of cells, each
    cell by its paragraphs. *)
Inductive siblings : list item -> Prop :=
| sib_nil : siblings []
| sib_other : forall x l, is_tablebody x = false -> is_tablecell x = false -> siblings l -> siblings (x :: l)
| sib_table : forall body cells l, is_tablebody body = true ->
    Forall (fun c => is_tablecell (fst c) = true /\ Forall (fun y => is_para y = true) (snd c)) cells ->
    Z.of_nat (List.length cells) = zsum (rowcols_of body) -> siblings l ->
    siblings (body :: concat (map (fun c : item * list item => fst c :: snd c) cells) ++ l).
(** Rows are declared, each with at least one cell. *)
Definition rows_declared (x : item) : Prop :=
  exists l, attr_get "rowcols" (i_attrs x) = Some (VInts l) /\ Forall (fun c => 1 <= c) l.

(** ** The control characters of a paragraph *)
Definition control_codes (chunks : list ((Z * Z) * chunk)) : list Z :=
  concat (map (fun c => match snd c with ChCtl ct => [chunk_control_code ct] | ChText _ => [] end) chunks).
Definition para_codes (k : forest item) : list Z :=
  match last_of "ParaText" (roots k) with
  | Some x => match attr_get "chunks" (i_attrs x) with Some (VChunks chunks) => control_codes chunks | _ => [] end
  | None => []
  end.
Definition extended_code (c : Z) : bool := match control_group c with Some KExtended => true | _ => false end.
Definition para_controls (k : forest item) : list item := filter is_ctl (roots k).
(** As many controls as extended control characters. *)
Definition controls_match (k : forest item) : Prop :=
  List.length (para_controls k) = List.length (filter extended_code (para_codes k)).

(** ** Fields: the beginnings ([true]) and ends ([false]) in the order of the
    text.  The end of a field is the control character 4; a field begins at the
    character of its control. *)
Fixpoint field_marks (controls : list item) (codes : list Z) : list bool :=
  match codes with
  | [] => []
  | c :: rest =>
      if extended_code c then
        match controls with
        | x :: controls' => (if is_field x then [true] else []) ++ field_marks controls' rest
        | [] => field_marks [] rest
        end
      else (if c =? 4 then [false] else []) ++ field_marks controls rest
  end.
(** Those of the paragraphs in a control. *)
Fixpoint marks_inside (f : forest item) : list bool :=
  match f with
  | FNil => []
  | FCons x k n => (if is_para x then field_marks (para_controls k) (para_codes k) else marks_inside k) ++ marks_inside n
  end.
(** Every end has its beginning and every beginning its end. *)
Fixpoint balanced (depth : nat) (marks : list bool) : Prop :=
  match marks with
  | [] => depth = 0%nat
  | true :: rest => balanced (S depth) rest
  | false :: rest => match depth with S d => balanced d rest | O => False end
  end.

(** ** Paragraphs (their text can be laid out, [para_ok]) and what controls hold *)
Definition paragraph_ok (x : item) (k : forest item) : Prop :=
  (exists s, split_number x = Some s) /\ para_ok (filter is_para_data (roots k)) /\ controls_match k.
Fixpoint shaped (in_paragraph : bool) (f : forest item) : Prop :=
  match f with
  | FNil => True
  | FCons x k n =>
      (if in_paragraph then
         (is_para_data x = true /\ k = FNil) \/
         ((is_ctl x = true \/ plain_record x = true) /\ shaped false k /\ siblings (roots k) /\ balanced 0 (marks_inside k))
       else if is_para x then paragraph_ok x k /\ shaped true k
       else if is_tablebody x then k = FNil /\ rows_declared x
       else (plain_record x = true \/ is_tablecell x = true) /\ shaped false k /\ siblings (roots k))
      /\ shaped in_paragraph n
  end.

(** The record tree of a section: paragraphs, with a section definition. *)
Record section_ok (f : forest item) : Prop := {
  so_paragraphs : forallb is_para (roots f) = true;
  so_shape : shaped false f;
  so_definition : exists s, In s (starts (walk f)) /\ is_sectiondef s = true }.

(** ** The document tree of a section, step by step. *)
Definition section_tree (sid : option Z) (f g : forest item) : Prop :=
  exists lined controlled s sk rest,
    with_lines f lined /\                              (* texts become lines of shaped text *)
    inlined lined = Some controlled /\                 (* controls go where their characters are *)
    extract_section (tokenized (with_rows (adopt is_tablebody is_tablecell (adopt is_listheader is_para
      (fst (regroup [] None controlled)))))) = Some (s, sk, rest) /\
    g = in_columns (FCons (with_section_id sid s) (fapp sk rest) FNil).
