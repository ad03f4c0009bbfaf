(** What the event passes should do, in terms of trees. *)
From Coq Require Import ZArith String List Bool.
From Verif Require Import Base Model_Tree Spec_Tree Model_ParaText Spec_ParaText Model_Shape Spec_Shape Model_Lang Model_Classes Model_XmlModel.
Import ListNotations.
Open Scope string_scope.
Open Scope list_scope.
Open Scope Z_scope.

(** ** Sequences of trees *)

Fixpoint flen {A} (f : forest A) : nat := match f with FNil => O | FCons _ _ n => S (flen n) end.
Fixpoint roots {A} (f : forest A) : list A := match f with FNil => [] | FCons x _ n => x :: roots n end.
(** The first n trees, and the others. *)
Fixpoint ftake {A} (n : nat) (f : forest A) : forest A :=
  match n, f with S k, FCons x kids r => FCons x kids (ftake k r) | _, _ => FNil end.
Fixpoint fdrop {A} (n : nat) (f : forest A) : forest A :=
  match n, f with S k, FCons _ _ r => fdrop k r | _, _ => f end.
(** The leading trees whose roots satisfy p, and the others. *)
Fixpoint frun {A} (p : A -> bool) (f : forest A) : forest A :=
  match f with FCons x kids r => if p x then FCons x kids (frun p r) else FNil | FNil => FNil end.
Fixpoint frest {A} (p : A -> bool) (f : forest A) : forest A :=
  match f with FCons x kids r => if p x then frest p r else f | FNil => FNil end.
(** The trees whose roots satisfy p. *)
Fixpoint fselect {A} (p : A -> bool) (f : forest A) : forest A :=
  match f with FCons x kids r => if p x then FCons x kids (fselect p r) else fselect p r | FNil => FNil end.
Fixpoint ftrees {A} (f : forest A) : list (A * forest A) :=
  match f with FCons x kids r => (x, kids) :: ftrees r | FNil => [] end.

(** Every node satisfies P (the node and its children). *)
Fixpoint everywhere {A} (P : A -> forest A -> Prop) (f : forest A) : Prop :=
  match f with FNil => True | FCons x k n => P x k /\ everywhere P k /\ everywhere P n end.

(** The same tree with other items. *)
Fixpoint same_shape {A B} (f : forest A) (g : forest B) : Prop :=
  match f, g with
  | FNil, FNil => True
  | FCons _ k n, FCons _ k' n' => same_shape k k' /\ same_shape n n'
  | _, _ => False
  end.

(** ** Kinds of elements *)
Definition is_para (x : item) : bool := model_is "Paragraph" x.
Definition is_char (x : item) : bool := model_is "ControlChar" x.
Definition is_ctl (x : item) : bool := model_sub "Control" x.
Definition is_field (x : item) : bool := model_sub "Field" x.
Definition is_lineseg (x : item) : bool := model_is "LineSeg" x.
Definition is_text (x : item) : bool := model_is "Text" x.
Definition is_listheader (x : item) : bool := model_sub "ListHeader" x.
Definition is_tablebody (x : item) : bool := model_is "TableBody" x.
Definition is_tablecell (x : item) : bool := model_is "TableCell" x.
Definition is_sectiondef (x : item) : bool := model_is "SectionDef" x.

(** ** List headers: a parent takes over the run of children that follows it. *)
Section Adopt.
  Variables isparent ischild : item -> bool.
  Fixpoint adopt (f : forest item) : forest item :=
    match f with
    | FNil => FNil
    | FCons x k n =>
        if isparent x then FCons x (fapp (adopt k) (frun ischild (adopt n))) (frest ischild (adopt n))
        else FCons x (adopt k) (adopt n)
    end.
End Adopt.

(** ** Tables: the cells of a table body are put in rows. *)
Definition a_row : item := mkItem "TableRow" 0 [].
Fixpoint group_rows (rowcols : list Z) (cells : forest item) : forest item :=
  match rowcols with
  | [] => FNil
  | c :: r => FCons a_row (ftake (Z.to_nat c) cells) (group_rows r (fdrop (Z.to_nat c) cells))
  end.

Definition rowcols_of (x : item) : list Z :=
  match attr_get "rowcols" (i_attrs x) with Some (VInts l) => l | _ => [] end.

Fixpoint with_rows (f : forest item) : forest item :=
  match f with
  | FNil => FNil
  | FCons x k n =>
      if is_tablebody x then FCons (del_item "rowcols" x) (group_rows (rowcols_of x) (with_rows k)) (with_rows n)
      else FCons x (with_rows k) (with_rows n)
  end.

Definition zsum (l : list Z) : Z := fold_right Z.add 0 l.

(** A table body declares at least one cell for each row and holds exactly the
    declared cells; cells are nowhere else. *)
Definition table_node (x : item) (k : forest item) : Prop :=
  if is_tablebody x then
    (exists l, attr_get "rowcols" (i_attrs x) = Some (VInts l)) /\
    Forall (fun c => 1 <= c) (rowcols_of x) /\ forallb is_tablecell (roots k) = true /\
    Z.of_nat (flen k) = zsum (rowcols_of x)
  else forallb (fun y => negb (is_tablecell y)) (roots k) = true.
Definition tables_ok (f : forest item) : Prop :=
  forallb (fun y => negb (is_tablecell y)) (roots f) = true /\ everywhere table_node f.

(** ** Texts by language *)
Definition a_token (shape : aval) (lang : string) (t : list Z) : item :=
  mkItem "Text" 0 [("charshape_id", shape); ("lang", VLang lang); ("text", VText t)].
Definition token_forest (shape : aval) (toks : list (string * list Z)) : forest item :=
  fold_right (fun tok f => FCons (a_token shape (fst tok) (snd tok)) FNil f) FNil toks.
Definition text_tokens (x : item) : forest item :=
  match attr_get "charshape_id" (i_attrs x), attr_get "text" (i_attrs x) with
  | Some shape, Some (VText t) => token_forest shape (tokenize_unicode_by_lang t)
  | _, _ => FNil
  end.
Fixpoint tokenized (f : forest item) : forest item :=
  match f with
  | FNil => FNil
  | FCons x k n => if is_text x then fapp (text_tokens x) (tokenized n) else FCons x (tokenized k) (tokenized n)
  end.
Definition text_node (x : item) (k : forest item) : Prop :=
  is_text x = true -> k = FNil /\ exists shape t, attr_get "charshape_id" (i_attrs x) = Some shape /\ attr_get "text" (i_attrs x) = Some (VText t).

(** ** Sections: the first section definition (in document order) and the rest. *)
Fixpoint extract_section (f : forest item) : option (item * forest item * forest item) :=
  match f with
  | FNil => None
  | FCons x k n =>
      if is_sectiondef x then Some (x, k, n)
      else match extract_section k with
           | Some (s, sk, k') => Some (s, sk, FCons x k' n)
           | None => match extract_section n with
                     | Some (s, sk, n') => Some (s, sk, FCons x k n')
                     | None => None
                     end
           end
  end.

(** ** Columns: a paragraph that begins a column definition, and its following
    siblings up to the next such paragraph, go into a column set. *)
Definition a_columnset : item := mkItem "ColumnSet" 0 [].
(** The split flags as a number. *)
Definition split_number (x : item) : option Z :=
  match attr_get "split" (i_attrs x) with Some (VInt s) | Some (VFlags _ s) => Some s | _ => None end.
(** Bit 1 of the split flags says that a new column definition begins. *)
Definition newcol (x : item) : bool :=
  is_para x && match split_number x with Some s => Z.testbit s 1 | None => false end.
Definition not_columns (x : item) : bool := negb (model_is "ColumnSet" x).
Fixpoint in_columns (f : forest item) : forest item :=
  match f with
  | FNil => FNil
  | FCons x k n =>
      if newcol x then FCons a_columnset (FCons x (in_columns k) (frun not_columns (in_columns n))) (frest not_columns (in_columns n))
      else FCons x (in_columns k) (in_columns n)
  end.
(** Paragraphs have split flags and do not hold paragraphs directly; there are no
    column sets yet. *)
Definition column_node (x : item) (k : forest item) : Prop :=
  not_columns x = true /\
  (is_para x = true -> (exists s, split_number x = Some s) /\ forallb (fun y => negb (is_para y)) (roots k) = true).

(** ** Ids *)
(** The four kinds of elements that get ids, and the names of the ids. *)
Definition id_names : list (string * string) :=
  [("Paragraph", "paragraph_id"); ("TableControl", "table_id"); ("GShapeObjectControl", "gshape_id"); ("ShapeComponent", "shape_id")].
Definition has_id (x : item) : bool := existsb (fun kn => model_is (fst kn) x) id_names.
(** How many items of this model. *)
Definition count_model (c : string) (l : list item) : Z := zlen (filter (model_is c) l).
(** The item y is x with its id: the number of items of its kind before it. *)
Definition with_id (before : list item) (x y : item) : Prop :=
  i_model y = i_model x /\ i_ref y = i_ref x /\
  match find (fun kn => model_is (fst kn) x) id_names with
  | None => i_attrs y = i_attrs x
  | Some (c, name) =>
      attr_get name (i_attrs y) = Some (VInt (count_model c before)) /\
      (forall key, key <> name -> attr_get key (i_attrs y) = attr_get key (i_attrs x)) /\
      (attr_get name (i_attrs x) = None -> i_attrs y = i_attrs x ++ [(name, VInt (count_model c before))])
  end.
(** The items [ys] are the items [xs], coming after the items [before], with their ids. *)
Fixpoint numbered (before xs ys : list item) : Prop :=
  match xs, ys with
  | [], [] => True
  | x :: xs', y :: ys' => with_id before x y /\ numbered (before ++ [x]) xs' ys'
  | _, _ => False
  end.

(** ** Controls inline *)
Definition extended (x : item) : bool :=
  is_char x && match attr_get "kind" (i_attrs x) with Some (VKind KExtended) => true | _ => false end.
(** The roots of a forest with what their children become ([None]: impossible). *)
Fixpoint collect (l : list (item * option (forest item))) : option (forest item) :=
  match l with
  | [] => Some FNil
  | (x, Some k) :: r => match collect r with Some n => Some (FCons x k n) | None => None end
  | (_, None) :: _ => None
  end.
(** Extended control characters are replaced by the controls in order; what is
    left of the controls. *)
Fixpoint fill (cs : list (item * option (forest item))) (f : forest item) : option (forest item * list (item * option (forest item))) :=
  match f with
  | FNil => Some (FNil, cs)
  | FCons x k n =>
      if extended x then
        match cs with
        | (c, Some ck) :: cs' => match fill cs' n with Some (n', r) => Some (FCons c ck n', r) | None => None end
        | _ => None
        end
      else
        match fill cs k with
        | None => None
        | Some (k', cs') => match fill cs' n with Some (n', r) => Some (FCons x k' n', r) | None => None end
        end
  end.
(** The children of a paragraph: the controls among them go into the lines. *)
Definition inline_para (l : list (item * option (forest item))) : option (forest item) :=
  match collect (filter (fun t => negb (is_ctl (fst t))) l) with
  | None => None
  | Some f => match fill (filter (fun t => is_ctl (fst t)) l) f with Some (kk, _) => Some kk | None => None end
  end.
Fixpoint converted (f : forest item) : list (item * option (forest item)) :=
  match f with
  | FNil => []
  | FCons x k n => (x, if is_para x then inline_para (converted k) else collect (converted k)) :: converted n
  end.
Definition inlined (f : forest item) : option (forest item) := collect (converted f).

(** No control characters and no controls, except inside paragraphs. *)
Fixpoint no_char (f : forest item) : Prop :=
  match f with
  | FNil => True
  | FCons x k n => is_char x = false /\ is_ctl x = false /\ (is_para x = true \/ no_char k) /\ no_char n
  end.
(** Lines: control characters are leaves with a kind; no controls, no
    paragraphs. *)
Fixpoint lines_ok (f : forest item) : Prop :=
  match f with
  | FNil => True
  | FCons x k n => is_para x = false /\ is_ctl x = false /\
      (is_char x = true -> k = FNil /\ exists a, attr_get "kind" (i_attrs x) = Some a) /\ lines_ok k /\ lines_ok n
  end.
(** The children of a paragraph: controls and other elements, then lines. *)
Fixpoint para_kids (k : forest item) : Prop :=
  lines_ok k \/
  match k with
  | FNil => True
  | FCons x kk n => is_char x = false /\ (is_para x = true \/ no_char kk) /\ para_kids n
  end.
Definition inline_node (x : item) (k : forest item) : Prop := is_para x = true -> para_kids k.
(** Control characters and controls only inside paragraphs. *)
Definition inline_ok (f : forest item) : Prop := no_char f /\ everywhere inline_node f.

(** ** Fields *)
(** A line being built: what is in the innermost open field so far, and for each
    open field (innermost first) the field and what came before it. *)
Definition line_state := (forest item * list (item * forest item))%type.
Definition open_fields (z : line_state) : list item := map fst (snd z).
Definition leaf_after (f : forest item) (x : item) (k : forest item) : forest item := fapp f (FCons x k FNil).
Definition put (x : item) (k : forest item) (z : line_state) : line_state := (leaf_after (fst z) x k, snd z).
Definition open_field (x : item) (k : forest item) (z : line_state) : line_state := (k, (x, fst z) :: snd z).
Definition close_field (z : line_state) : line_state :=
  match snd z with [] => z | (x, outer) :: fr => (leaf_after outer x (fst z), fr) end.
Fixpoint finish_line (cur : forest item) (fr : list (item * forest item)) : forest item :=
  match fr with [] => cur | (x, outer) :: fr' => finish_line (leaf_after outer x cur) fr' end.
(** A line begins with the fields that are still open. *)
Definition reopen (st : list item) : line_state := (FNil, map (fun x => (x, FNil)) st).

Definition field_end_char (x : item) : bool :=
  is_char x && match attr_get "name" (i_attrs x) with Some (VText t) => text_eqb t (zs "FIELD_END") | _ => false end.

(** [st]: the fields that are open (innermost first); [z]: the line being built,
    if any.  The new forest and the fields that are open afterwards. *)
Fixpoint regroup (st : list item) (z : option line_state) (f : forest item) {struct f} : forest item * list item :=
  match f with
  | FNil => match z with None => (FNil, st) | Some z => (finish_line (fst z) (snd z), open_fields z) end
  | FCons x k n =>
      let inside cur := regroup cur (if is_lineseg x then Some (reopen cur) else None) k in
      match z with
      | None => let k1 := inside st in let n1 := regroup (snd k1) None n in (FCons x (fst k1) (fst n1), snd n1)
      | Some z =>
          if is_field x then regroup st (Some (open_field x (fst (inside (x :: open_fields z))) z)) n
          else if field_end_char x then regroup st (Some (close_field z)) n
          else regroup st (Some (put x (fst (inside (open_fields z))) z)) n
      end
  end.

(** Fields and field ends are only in lines; what is inside an element of a line
    leaves the open fields as they were; control characters have names. *)
Fixpoint fields_ok (st : list item) (z : option line_state) (f : forest item) {struct f} : Prop :=
  match f with
  | FNil => True
  | FCons x k n =>
      let mode cur := if is_lineseg x then Some (reopen cur) else None in
      let inside cur := regroup cur (mode cur) k in
      let neutral cur := fields_ok cur (mode cur) k /\ snd (inside cur) = cur in
      (is_char x = true -> exists a, attr_get "name" (i_attrs x) = Some a) /\
      match z with
      | None => is_field x = false /\ field_end_char x = false /\ fields_ok st (mode st) k /\ fields_ok (snd (inside st)) None n
      | Some z =>
          if is_field x then neutral (x :: open_fields z) /\ fields_ok st (Some (open_field x (fst (inside (x :: open_fields z))) z)) n
          else if field_end_char x then k = FNil /\ fields_ok st (Some (close_field z)) n
          else neutral (open_fields z) /\ fields_ok st (Some (put x (fst (inside (open_fields z))) z)) n
      end
  end.

(** Control characters have names. *)
Definition named (x : item) : Prop := is_char x = true -> exists a, attr_get "name" (i_attrs x) = Some a.

(** The events that are neither of fields nor of field ends. *)
Definition item_of {A} (e : event A) : A := match e with EStart x => x | EEnd x => x end.
Definition not_field_event (e : event item) : bool := negb (is_field (item_of e)) && negb (field_end_char (item_of e)).

(** ** Texts *)
(** The text, shape, line and range tag records of a paragraph: those among its
    descendants that are not in a paragraph inside it. *)
Definition is_para_data (x : item) : bool :=
  model_is "ParaText" x || model_is "ParaCharShape" x || model_is "ParaLineSeg" x || model_is "ParaRangeTag" x.
Fixpoint para_items (f : forest item) : list item :=
  match f with
  | FNil => []
  | FCons x k n => (if is_para x then [] else (if is_para_data x then [x] else []) ++ para_items k) ++ para_items n
  end.
Definition last_of (c : string) (l : list item) : option item := find (model_is c) (rev l).

(** What the records say: chunks of text, character shapes, line segments. *)
Definition para_chunks (l : list item) (chunks : list ((Z * Z) * chunk)) : Prop :=
  match last_of "ParaText" l with
  | None => chunks = [((0, 0), ChText [])]
  | Some x => attr_get "chunks" (i_attrs x) = Some (VChunks chunks)
  end.
Definition para_shapes (l : list item) (shapes : list (Z * Z)) : Prop :=
  exists x, last_of "ParaCharShape" l = Some x /\ attr_get "charshapes" (i_attrs x) = Some (VCharShapes shapes).
(** Line segments are numbered, since equal ones are still different lines. *)
Definition a_line : list (string * Z) :=
  [("chpos", 0); ("y", 0); ("height", 0); ("height2", 0); ("height85", 0); ("space_below", 0); ("x", 0); ("width", 0); ("a8", 0); ("flags", 0)].
Fixpoint positioned (i : Z) (segs : list (list (string * Z))) (lines : list (Z * (Z * list (string * Z)))) : Prop :=
  match segs, lines with
  | [], [] => True
  | d :: segs', (p, (j, d')) :: lines' => zattr "chpos" d = Some p /\ j = i /\ d' = d /\ positioned (i + 1) segs' lines'
  | _, _ => False
  end.
Definition para_segs (l : list item) (lines : list (Z * (Z * list (string * Z)))) : Prop :=
  match last_of "ParaLineSeg" l with
  | None => lines = [(0, (0, a_line))]
  | Some x => exists segs, attr_get "linesegs" (i_attrs x) = Some (VLineSegs segs) /\ positioned 0 segs lines
  end.

Definition plain_chunks (chunks : list ((Z * Z) * chunk)) : list ((Z * Z) * unit * chunk) := map (fun c => (fst c, tt, snd c)) chunks.
Definition known_control (c : chunk) : Prop :=
  match c with ChText _ => True | ChCtl ct => exists k, control_group (chunk_control_code ct) = Some k end.

(** A paragraph that can be laid out: shapes and lines in ascending order, from
    the beginning on, no control cut by a boundary. *)
Record para_layout (l : list item) (chunks : list ((Z * Z) * chunk)) (shape0 : Z * Z) (shapes : list (Z * Z))
    (line0 : Z * (Z * list (string * Z))) (lines : list (Z * (Z * list (string * Z)))) : Prop := {
  pl_chunks : para_chunks l chunks;
  pl_shapes : para_shapes l (shape0 :: shapes);
  pl_segs : para_segs l (line0 :: lines);
  pl_ascending : ascending (map fst (shape0 :: shapes)) /\ ascending (map fst (line0 :: lines));
  pl_order : in_order (fst shape0) (plain_chunks chunks) /\ in_order (fst line0) (plain_chunks chunks);
  pl_fits : Forall (control_fits (map fst (shape0 :: shapes))) (plain_chunks chunks) /\
            Forall (control_fits (map fst (line0 :: lines))) (plain_chunks chunks);
  pl_known : Forall (fun c => known_control (snd c)) chunks }.
Definition para_ok (l : list item) : Prop :=
  exists chunks shape0 shapes line0 lines, para_layout l chunks shape0 shapes line0 lines.

(** A chunk as an element; a line. *)
Definition a_text (t : list Z) (shape : Z) : item := mkItem "Text" 0 [("text", VText t); ("charshape_id", VInt shape)].
Definition a_char (code : Z) (kind : ctl_kind) (shape : Z) : item :=
  mkItem "ControlChar" 0
    ([("name", VText (zs (control_name code))); ("code", VInt code); ("kind", VKind kind); ("charshape_id", VInt shape)]
     ++ (if existsb (Z.eqb code) [9; 10; 13] then [("char", VText [code])] else [])).
Definition chunk_elem (shape : Z) (c : chunk) : item :=
  match c with
  | ChText t => a_text t shape
  | ChCtl ct => match control_group (chunk_control_code ct) with
                | Some k => a_char (chunk_control_code ct) k shape
                | None => a_text [] shape                  (* not with known controls *)
                end
  end.
Definition chunk_leaves (chunks : list ((Z * Z) * (Z * unit) * chunk)) : forest item :=
  fold_right (fun c f => FCons (chunk_elem (fst (snd (fst c))) (snd c)) FNil f) FNil chunks.
Definition line_elem (ls : Z * list (string * Z)) : item := mkItem "LineSeg" 0 (map (fun kv => (fst kv, VInt (snd kv))) (snd ls)).
Definition line_trees (gs : list ((Z * list (string * Z)) * list ((Z * Z) * (Z * unit) * chunk))) : forest item :=
  fold_right (fun g f => FCons (line_elem (fst g)) (chunk_leaves (snd g)) f) FNil gs.

(** The lines of a paragraph: the chunks cut at shapes and lines, grouped by
    line. *)
Definition para_lines (l : list item) (lf : forest item) : Prop :=
  exists chunks shape0 shapes line0 lines gs, para_layout l chunks shape0 shapes line0 lines /\
  grouping gs (fst (split_spec (snd line0) (line0 :: lines)
                      (fst (split_spec (snd shape0) (shape0 :: shapes) (plain_chunks chunks) Finished)) Finished)) /\
  lf = line_trees gs.

(** Records of paragraphs are taken out (if they have children, these stay) and
    the lines come last in the paragraph. *)
Fixpoint with_lines (f g : forest item) : Prop :=
  match f with
  | FNil => g = FNil
  | FCons x k n =>
      exists k' n', with_lines k k' /\ with_lines n n' /\
      if is_para x then exists lf, para_lines (para_items k) lf /\ g = FCons x (fapp k' lf) n'
      else g = if is_para_data x then fapp k' n' else FCons x k' n'
  end.
Definition texts_node (x : item) (k : forest item) : Prop := is_para x = true -> para_ok (para_items k).

(** What lines say: characters and control codes with line and shape. *)
Definition leaf_said (line : list (string * aval)) (x : item) : list ((Z + Z) * (list (string * aval) * option aval)) :=
  let shape := attr_get "charshape_id" (i_attrs x) in
  if is_text x then match attr_get "text" (i_attrs x) with Some (VText t) => map (fun c => (inl c, (line, shape))) t | _ => [] end
  else match attr_get "code" (i_attrs x) with Some (VInt code) => [(inr code, (line, shape))] | _ => [] end.
Fixpoint lines_said (f : forest item) : list ((Z + Z) * (list (string * aval) * option aval)) :=
  match f with
  | FNil => []
  | FCons x k n => concat (map (leaf_said (i_attrs x)) (roots k)) ++ lines_said n
  end.
(** The same from the chunks: each character has the line and the shape that are
    in force at its position. *)
Definition as_said (y : (Z + control) * ((Z * list (string * Z)) * (Z * unit))) : (Z + Z) * (list (string * aval) * option aval) :=
  (match fst y with inl c => inl c | inr ct => inr (chunk_control_code ct) end,
   (map (fun kv => (fst kv, VInt (snd kv))) (snd (fst (snd y))), Some (VInt (fst (snd (snd y)))))).

(** ** Shapes of the results *)
(** A paragraph that begins a column definition is the first child of a column
    set, and column sets begin with one. *)
Definition no_newcol (f : forest item) : Prop := forallb (fun y => negb (newcol y)) (roots f) = true.
Definition columns_node (x : item) (k : forest item) : Prop :=
  if model_is "ColumnSet" x then exists p pk n, k = FCons p pk n /\ newcol p = true /\ no_newcol n else no_newcol k.
Definition not_columns_event (e : event item) : bool := not_columns (item_of e).

(** 0, 1, 2, ... *)
Fixpoint upto (i : Z) (n : nat) : list Z := match n with O => [] | S k => i :: upto (i + 1) k end.

Definition with_section_id (sid : option Z) (s : item) : item :=
  match sid with Some n => set_item "section_id" (VInt n) s | None => s end.

(** ** Which classes are list headers, fields, table bodies *)
Definition list_header_classes : list string :=
  ["ListHeader"; "TableCaption"; "TableCell"; "GShapeObjectCaption"; "TextboxParagraphList"; "HeaderFooterParagraphList";
   "HeaderParagraphList"; "FooterParagraphList"].
Definition field_classes : list string :=
  ["Field"; "FieldUnknown"; "FieldDate"; "FieldDocDate"; "FieldPath"; "FieldBookmark"; "FieldMailMerge";
   "FieldCrossRef"; "FieldFormula"; "FieldClickHere"; "FieldSummary"; "FieldUserInfo"; "FieldHyperLink";
   "FieldRevisionSign"; "FieldRevisionDelete"; "FieldRevisionAttach"; "FieldRevisionClipping";
   "FieldRevisionSawtooth"; "FieldRevisionThinking"; "FieldRevisionPraise"; "FieldRevisionLine";
   "FieldRevisionSimpleChange"; "FieldRevisionHyperlink"; "FieldRevisionLineAttach"; "FieldRevisionLineLink";
   "FieldRevisionLineTransfer"; "FieldRevisionRightMove"; "FieldRevisionLeftMove"; "FieldRevisionTransfer";
   "FieldRevisionSimpleInsert"; "FieldRevisionSplit"; "FieldRevisionChange"; "FieldMemo";
   "FieldPrivateInfoSecurity"].
Definition other_control_classes : list string :=
  ["Control"; "BookmarkControl"; "ColumnsDef"; "CommonControl"; "Dutmal"; "GShapeObjectControl"; "HeaderFooter";
   "Header"; "Footer"; "HiddenComment"; "IndexMarker"; "Note"; "FootNote"; "EndNote"; "NumberingControl";
   "AutoNumbering"; "NewNumbering"; "PageHide"; "PageNumberPosition"; "PageOddEven"; "SectionDef";
   "TableControl"; "TCPSControl"].
