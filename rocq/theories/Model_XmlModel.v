(** Model of the event passes of src/hwp5/xmlmodel.py. *)
From Coq Require Import ZArith String List Bool.
From Verif Require Import Base Model_Dataio Model_Tree Model_ParaText Model_Shape Model_Lang Model_Classes.
From Verif Require Model_Bintype.
Import ListNotations.
Open Scope string_scope.
Open Scope list_scope.
Open Scope Z_scope.

(** Attribute values the passes look at; [VOther] stands for all the others. *)
Inductive aval :=
| VInt (n : Z)
| VFlags (groups : list (string * flag_field)) (n : Z)
| VText (t : list Z)
| VLang (s : string)
| VKind (k : ctl_kind)
| VInts (l : list Z)                                   (* rowcols *)
| VChunks (l : list ((Z * Z) * chunk))                 (* ParaText chunks *)
| VCharShapes (l : list (Z * Z))                       (* ParaCharShape charshapes: (position, id) *)
| VLineSegs (l : list (list (string * Z)))             (* ParaLineSeg linesegs *)
| VOther (v : Model_Bintype.value).

(** The (model, attributes, context) of an event.  Contexts are only passed on
    and are left out.  [i_ref] is the identity of the attribute dict, which the
    start event and the end event of an element share. *)
Record item := mkItem { i_model : string; i_ref : Z; i_attrs : list (string * aval) }.

(** [attributes[key]] *)
Fixpoint attr_get (key : string) (attrs : list (string * aval)) : option aval :=
  match attrs with
  | [] => None
  | (k, v) :: r => if String.eqb k key then Some v else attr_get key r
  end.
(** [attributes[key] = v]: a new key goes to the end. *)
Fixpoint attr_set (key : string) (v : aval) (attrs : list (string * aval)) : list (string * aval) :=
  match attrs with
  | [] => [(key, v)]
  | (k, w) :: r => if String.eqb k key then (k, v) :: r else (k, w) :: attr_set key v r
  end.
(** [attributes.pop(key)] *)
Definition attr_del (key : string) (attrs : list (string * aval)) : list (string * aval) :=
  filter (fun kv => negb (String.eqb (fst kv) key)) attrs.

Definition set_item (key : string) (v : aval) (it : item) : item :=
  mkItem (i_model it) (i_ref it) (attr_set key v (i_attrs it)).
Definition del_item (key : string) (it : item) : item :=
  mkItem (i_model it) (i_ref it) (attr_del key (i_attrs it)).

Definition model_is (c : string) (it : item) : bool := String.eqb (i_model it) c.
Definition model_sub (c : string) (it : item) : bool := issubclass (i_model it) c.

(** A pass reads events from an iterator: a list and the way it ends.  Every
    loop below returns the iterator's outcome [o] when the events run out. *)
Definition gthen {A} (g : gen A) (k : gen A) : gen A :=
  match snd g with Finished => gapp (fst g) k | o => (fst g, o) end.

(** ** Texts, xmlmodel.py 165-253 *)

Definition chunk_control_code (c : control) : Z :=
  match c with CtlChar code => code | CtlTab code _ _ _ _ => code | CtlObj code _ _ => code end.

(** xmlmodel.py 232-253 [range_shaped_textchunk_events]; the items are created
    here, their identity does not matter. *)
Definition text_item (t : list Z) (shape : Z) : item :=
  mkItem "Text" 0 [("text", VText t); ("charshape_id", VInt shape)].
Definition controlchar_item (code : Z) (kind : ctl_kind) (shape : Z) : item :=
  mkItem "ControlChar" 0
    ([("name", VText (get_name_by_code code)); ("code", VInt code); ("kind", VKind kind); ("charshape_id", VInt shape)]
     ++ (if (code =? 0x9) || (code =? 0xa) || (code =? 0xd) then [("char", VText [code])] else [])).

Fixpoint textchunk_events (chunks : list ((Z * Z) * (Z * unit) * chunk)) : gen (event item) :=
  match chunks with
  | [] => ([], Finished)
  | (_, (shape, _), ChText t) :: r =>
      gapp [EStart (text_item t shape); EEnd (text_item t shape)] (textchunk_events r)
  | (_, (shape, _), ChCtl c) :: r =>
      let code := chunk_control_code c in
      match control_kind code with
      | Raise e => ([], Failed e)
      | Ok kind => gapp [EStart (controlchar_item code kind shape); EEnd (controlchar_item code kind shape)]
                        (textchunk_events r)
      end
  end.

(** A line segment dict with its identity (position in the list). *)
Definition lineseg := (Z * list (string * Z))%type.
Definition same_lineseg (a b : lineseg) : bool := fst a =? fst b.

Fixpoint zattr (key : string) (l : list (string * Z)) : option Z :=
  match l with [] => None | (k, v) :: r => if String.eqb k key then Some v else zattr key r end.

(** xmlmodel.py 219-220: the generator of (chpos, lineseg). *)
Fixpoint chpos_linesegs (i : Z) (l : list (list (string * Z))) : gen (Z * lineseg) :=
  match l with
  | [] => ([], Finished)
  | d :: r => match zattr "chpos" d with
              | None => ([], Failed KeyError)
              | Some p => gcons (p, (i, d)) (chpos_linesegs (i + 1) r)
              end
  end.

(** [make_ranged_shapes] (xmlmodel.py 94-100) on an iterator that can fail: the
    items before the last one seen are out by then. *)
Definition make_ranged_shapes_gen {S} (shapes : gen (Z * S)) : gen ((Z * Z) * S) :=
  match snd shapes with
  | Finished => make_ranged_shapes (fst shapes)
  | o => (match fst shapes with [] => [] | item :: rest => removelast (ranged_from item rest) end, o)
  end.

(** xmlmodel.py 214-215: the dummy line segment. *)
Definition dummy_lineseg : list (string * Z) :=
  [("chpos", 0); ("y", 0); ("height", 0); ("height2", 0); ("height85", 0); ("space_below", 0);
   ("x", 0); ("width", 0); ("a8", 0); ("flags", 0)].

Definition lineseg_item (ls : lineseg) : item :=
  mkItem "LineSeg" 0 (map (fun kv => (fst kv, VInt (snd kv))) (snd ls)).

(** xmlmodel.py 223-229: each line wrapped (wrap_modelevents 555-559). *)
Fixpoint line_events (lines : list (lineseg * list ((Z * Z) * (Z * unit) * chunk))) (o : outcome) : gen (event item) :=
  match lines with
  | [] => ([], o)
  | (ls, chunks) :: r =>
      gcons (EStart (lineseg_item ls))
        (gthen (textchunk_events chunks) (gcons (EEnd (lineseg_item ls)) (line_events r o)))
  end.

(** xmlmodel.py 199-229 [merge_paragraph_text_charshape_lineseg]: the items are
    ParaText (never None), ParaCharShape and ParaLineSeg. *)
Definition merge_paragraph (paratext : item) (paracharshape paralineseg : option item) : gen (event item) :=
  match attr_get "chunks" (i_attrs paratext) with
  | None => ([], Failed KeyError)
  | Some (VChunks chunks) =>
      match paracharshape with
      | None => ([], Failed TypeError)                 (* None[1] *)
      | Some cs =>
          match attr_get "charshapes" (i_attrs cs) with
          | None => ([], Failed KeyError)
          | Some (VCharShapes charshapes) =>
              let shaped := split_and_shape (map (fun c => (fst c, tt, snd c)) chunks, Finished) (make_ranged_shapes charshapes) in
              let linesegs :=
                match paralineseg with
                | None => Ok [dummy_lineseg]
                | Some pl => match attr_get "linesegs" (i_attrs pl) with
                             | None => Raise KeyError
                             | Some (VLineSegs l) => Ok l
                             | Some _ => Raise TypeError
                             end
                end in
              match linesegs with
              | Raise e => ([], Failed e)
              | Ok l =>
                  let g := line_segmented same_lineseg shaped (make_ranged_shapes_gen (chpos_linesegs 0 l)) in
                  line_events (fst g) (snd g)
              end
          | Some _ => ([], Failed TypeError)
          end
      end
  | Some _ => ([], Failed TypeError)
  end.

(** The dict of a paragraph on the stack: last assignment first. *)
Fixpoint dict_item (c : string) (d : list item) : option item :=
  match d with [] => None | it :: r => if model_is c it then Some it else dict_item c r end.

Definition para_data (it : item) : bool :=
  model_is "ParaText" it || model_is "ParaCharShape" it || model_is "ParaLineSeg" it || model_is "ParaRangeTag" it.

(** xmlmodel.py 181-184: a paragraph without text has one empty chunk. *)
Definition empty_paratext : item := mkItem "ParaText" 0 [("chunks", VChunks [((0, 0), ChText [])])].

(** xmlmodel.py 165-196 [make_texts_linesegmented_and_charshaped] *)
Fixpoint make_texts (stack : list (list item)) (evs : list (event item)) (o : outcome) : gen (event item) :=
  match evs with
  | [] => ([], o)
  | EStart it :: rest =>
      if model_is "Paragraph" it then gcons (EStart it) (make_texts ([] :: stack) rest o)
      else if para_data it then
        match stack with
        | [] => ([], Failed IndexError)
        | d :: st => make_texts ((it :: d) :: st) rest o
        end
      else gcons (EStart it) (make_texts stack rest o)
  | EEnd it :: rest =>
      if model_is "Paragraph" it then
        match stack with
        | [] => ([], Failed IndexError)
        | d :: st =>
            let paratext := match dict_item "ParaText" d with Some p => p | None => empty_paratext end in
            gthen (merge_paragraph paratext (dict_item "ParaCharShape" d) (dict_item "ParaLineSeg" d))
                  (gcons (EEnd it) (make_texts st rest o))
        end
      else if para_data it then make_texts stack rest o
      else gcons (EEnd it) (make_texts stack rest o)
  end.
Definition make_texts_linesegmented_and_charshaped (g : gen (event item)) : gen (event item) := make_texts [] (fst g) (snd g).

(** ** Controls inline, xmlmodel.py 318-363 *)

(** paragraph.get(Control): None until the first control. *)
Definition controls := option (list (item * forest item)).

(** Output, how it ended, the stack afterwards.  [None] in the outcome slot of
    [build_subtree] cannot happen (see Proof_Tree).  The nested call for the
    events of a control shares the stack; its fuel is the outer fuel minus one,
    as is that of the rest of the loop. *)
Fixpoint inline_loop (fuel : nat) (stack : list controls) (evs : list (event item)) (o : outcome)
  : list (event item) * outcome * list controls :=
  match fuel with
  | O => ([], OutOfFuel, stack)
  | S k =>
      let yield out r := let '(out', o', st') := r in (out ++ out', o', st') in
      match evs with
      | [] => ([], o, stack)
      | EStart it :: rest =>
          if model_is "Paragraph" it then yield [EStart it] (inline_loop k (None :: stack) rest o)
          else if model_is "ControlChar" it then
            match attr_get "kind" (i_attrs it) with
            | None => ([], Failed KeyError, stack)
            | Some (VKind KExtended) =>
                match stack with
                | [] => ([], Failed IndexError, stack)
                | None :: _ => ([], Failed AttributeError, stack)       (* None.pop *)
                | Some [] :: _ => ([], Failed IndexError, stack)        (* pop from empty list *)
                | Some ((x, kids) :: cs) :: st =>
                    (* tree_events: the start event is yielded, the others go
                       through the pass again *)
                    match inline_loop k (Some cs :: st) (tree_events_multi kids ++ [EEnd x]) Finished with
                    | (out, Finished, st') => yield (EStart x :: out) (inline_loop k st' rest o)
                    | (out, e, st') => (EStart x :: out, e, st')
                    end
                end
            | Some _ => yield [EStart it; EEnd it] (inline_loop k stack rest o)
            end
          else if model_sub "Control" it then
            match build_subtree rest with
            | None => ([], OutOfFuel, stack)
            | Some (sub, rest') =>
                match stack with
                | [] => ([], Failed IndexError, stack)
                | cs :: st =>
                    let cs' := match cs with None => [] | Some l => l end in
                    match sub with
                    | Some (x, kids) => inline_loop k (Some (cs' ++ [(x, kids)]) :: st) rest' o
                    | None => inline_loop k stack rest' o               (* only when the events ran out *)
                    end
                end
            end
          else yield [EStart it] (inline_loop k stack rest o)
      | EEnd it :: rest =>
          if model_is "Paragraph" it then
            match stack with
            | [] => ([EEnd it], Failed IndexError, stack)
            | _ :: st => yield [EEnd it] (inline_loop k st rest o)
            end
          else if model_is "ControlChar" it then inline_loop k stack rest o
          else yield [EEnd it] (inline_loop k stack rest o)
      end
  end.

(** The fuel bounds how long the chain of loop steps can be: the events of the
    input, then those of a control being put in place, and so on inwards; each
    of at most n nested controls has fewer than n events.  (C27 shows that it
    never runs out.) *)
Definition make_extended_controls_inline (g : gen (event item)) : gen (event item) :=
  let '(out, o, _) := inline_loop (S (2 * List.length (fst g) * S (List.length (fst g)))) [] (fst g) (snd g) in (out, o).

(** ** List headers, xmlmodel.py 366-394 [make_paragraphs_children_of_listheader] *)

Section ListHeader.
  Variables isparent ischild : item -> bool.

  (** [level] and the stack of (level, item), top first. *)
  Fixpoint listheader_loop (stack : list (Z * item)) (level : Z) (evs : list (event item)) (o : outcome) : gen (event item) :=
    match evs with
    | [] => ([], o)
    | EStart it :: rest =>
        let level := level + 1 in
        let '(closed, stack) :=
          match stack with
          | (l, lh) :: st => if (l =? level) && negb (ischild it) then ([EEnd lh], st) else ([], stack)
          | [] => ([], stack)
          end in
        gapp closed
          (gcons (EStart it) (listheader_loop (if isparent it then (level, it) :: stack else stack) level rest o))
    | EEnd it :: rest =>
        let '(closed, stack) :=
          match stack with
          | (l, lh) :: st => if l - 1 =? level then ([EEnd lh], st) else ([], stack)
          | [] => ([], stack)
          end in
        gapp closed
          (if isparent it then listheader_loop stack (level - 1) rest o
           else gcons (EEnd it) (listheader_loop stack (level - 1) rest o))
    end.
End ListHeader.

(** The two uses, xmlmodel.py 750-752. *)
Definition make_paragraphs_children_of_listheader (g : gen (event item)) : gen (event item) :=
  listheader_loop (model_sub "ListHeader") (model_is "Paragraph") [] 0 (fst g) (snd g).
Definition make_cells_children_of_tablebody (g : gen (event item)) : gen (event item) :=
  listheader_loop (model_sub "TableBody") (model_is "TableCell") [] 0 (fst g) (snd g).

(** ** Fields, xmlmodel.py 397-440 [match_field_start_end] *)

Definition FIELD_END : list Z := zs "FIELD_END".
Definition text_eqb (a b : list Z) : bool := if list_eq_dec Z.eq_dec a b then true else false.

(** [attributes['name'] == 'FIELD_END'] *)
Definition is_field_end (it : item) : res bool :=
  match attr_get "name" (i_attrs it) with
  | None => Raise KeyError
  | Some (VText t) => Ok (text_eqb t FIELD_END)
  | Some _ => Ok false
  end.

(** The stack of open fields, last one first. *)
Fixpoint field_loop (stack : list item) (evs : list (event item)) (o : outcome) : gen (event item) :=
  match evs with
  | [] => ([], o)
  | EStart it :: rest =>
      if model_sub "Field" it then gcons (EStart it) (field_loop (it :: stack) rest o)
      else if model_is "LineSeg" it then
        gapp (EStart it :: map EStart (rev stack)) (field_loop stack rest o)
      else if model_is "ControlChar" it then
        match is_field_end it with
        | Raise e => ([], Failed e)
        | Ok true => field_loop stack rest o
        | Ok false => gcons (EStart it) (field_loop stack rest o)
        end
      else gcons (EStart it) (field_loop stack rest o)
  | EEnd it :: rest =>
      if model_sub "Field" it then field_loop stack rest o
      else if model_is "LineSeg" it then
        gapp (map EEnd stack ++ [EEnd it]) (field_loop stack rest o)
      else if model_is "ControlChar" it then
        match is_field_end it with
        | Raise e => ([], Failed e)
        | Ok true =>
            match stack with
            | f :: st => gcons (EEnd f) (field_loop st rest o)
            | [] => field_loop stack rest o                    (* warning: unmatched field end *)
            end
        | Ok false => gcons (EEnd it) (field_loop stack rest o)
        end
      else gcons (EEnd it) (field_loop stack rest o)
  end.
Definition match_field_start_end (g : gen (event item)) : gen (event item) := field_loop [] (fst g) (snd g).

(** ** Table rows, xmlmodel.py 443-496 [restructure_tablebody] *)

Definition ROW_OPEN : Z := 1.
Definition ROW_CLOSE : Z := 2.

(** xmlmodel.py 469-477: the marks of one row of [cols] cells. *)
Definition row_marks (cols : Z) : list Z :=
  if cols =? 1 then [Z.lor ROW_OPEN ROW_CLOSE]
  else [ROW_OPEN] ++ repeat 0 (Z.to_nat (cols - 2)) ++ [ROW_CLOSE].

Definition row_item : item := mkItem "TableRow" 0 [].

Fixpoint tablebody_loop (stack : list (list Z)) (evs : list (event item)) (o : outcome) : gen (event item) :=
  match evs with
  | [] => ([], o)
  | EStart it :: rest =>
      if model_is "TableBody" it then
        match attr_get "rowcols" (i_attrs it) with
        | None => ([], Failed KeyError)
        | Some (VInts rowcols) =>
            gcons (EStart (del_item "rowcols" it)) (tablebody_loop (flat_map row_marks rowcols :: stack) rest o)
        | Some _ => ([], Failed TypeError)
        end
      else if model_is "TableCell" it then
        match stack with
        | [] => ([], Failed IndexError)
        | [] :: _ => ([], Failed IndexError)                   (* rowcols[0] *)
        | (how :: _) :: _ =>
            gapp (if negb (Z.land how ROW_OPEN =? 0) then [EStart row_item] else [])
                 (gcons (EStart it) (tablebody_loop stack rest o))
        end
      else gcons (EStart it) (tablebody_loop stack rest o)
  | EEnd it :: rest =>
      if model_is "TableBody" it then
        gcons (EEnd (del_item "rowcols" it))
          (match stack with
           | [] => ([], Failed IndexError)
           | _ :: st => tablebody_loop st rest o
           end)
      else if model_is "TableCell" it then
        match stack with
        | [] => ([], Failed IndexError)
        | [] :: _ => ([EEnd it], Failed IndexError)            (* rowcols.popleft() *)
        | (how :: marks) :: st =>
            gcons (EEnd it)
              (gapp (if negb (Z.land how ROW_CLOSE =? 0) then [EEnd row_item] else [])
                    (tablebody_loop (marks :: st) rest o))
        end
      else gcons (EEnd it) (tablebody_loop stack rest o)
  end.
Definition restructure_tablebody (g : gen (event item)) : gen (event item) := tablebody_loop [] (fst g) (snd g).

(** ** Languages, xmlmodel.py 499-515 [tokenize_text_by_lang] *)

Definition token_item (shape : aval) (lang : string) (t : list Z) : item :=
  mkItem "Text" 0 [("charshape_id", shape); ("lang", VLang lang); ("text", VText t)].

Fixpoint tokenize_loop_events (evs : list (event item)) (o : outcome) : gen (event item) :=
  match evs with
  | [] => ([], o)
  | EStart it :: rest =>
      if model_is "Text" it then
        match attr_get "charshape_id" (i_attrs it), attr_get "text" (i_attrs it) with
        | Some shape, Some (VText t) =>
            gapp (flat_map (fun tok => [EStart (token_item shape (fst tok) (snd tok)); EEnd (token_item shape (fst tok) (snd tok))])
                           (tokenize_unicode_by_lang t))
                 (tokenize_loop_events rest o)
        | Some _, Some _ => ([], Failed TypeError)
        | _, _ => ([], Failed KeyError)
        end
      else gcons (EStart it) (tokenize_loop_events rest o)
  | EEnd it :: rest =>
      if model_is "Text" it then tokenize_loop_events rest o
      else gcons (EEnd it) (tokenize_loop_events rest o)
  end.
Definition tokenize_text_by_lang (g : gen (event item)) : gen (event item) := tokenize_loop_events (fst g) (snd g).

(** ** Sections, xmlmodel.py 256-278 [wrap_section] *)

Definition section_item (sect_id : option Z) (it : item) : item :=
  match sect_id with Some n => set_item "section_id" (VInt n) it | None => it end.

(** [buffer] is starting_buffer, last event first.  The item of the final end
    event is None when no section definition was met.  [attributes] belongs to
    the start event of the section definition; it is the same dict as that of
    [sectiondef], unless the events are not well nested. *)
Fixpoint section_loop (sect_id : option Z) (buffer : list (event item)) (evs : list (event item)) (o : outcome)
  : gen (event (option item)) :=
  let some (e : event item) := match e with EStart x => EStart (Some x) | EEnd x => EEnd (Some x) end in
  match evs with
  | [] => match o with Finished => ([EEnd None], Finished) | _ => ([], o) end
  | EStart it :: rest =>
      if model_is "SectionDef" it then
        match build_subtree rest with
        | None => ([], OutOfFuel)
        | Some (None, _) => match o with Finished => ([], Failed TypeError) | _ => ([], o) end   (* None is not a pair *)
        | Some (Some (sectiondef, kids), rest') =>
            let sectiondef := if i_ref it =? i_ref sectiondef then section_item sect_id sectiondef else sectiondef in
            gapp (map some (EStart sectiondef :: tree_events_multi kids ++ rev buffer ++ rest'))
                 (match o with Finished => ([EEnd (Some sectiondef)], Finished) | _ => ([], o) end)
        end
      else section_loop sect_id (EStart it :: buffer) rest o
  | EEnd it :: rest => section_loop sect_id (EEnd it :: buffer) rest o
  end.
Definition wrap_section (sect_id : option Z) (g : gen (event item)) : gen (event (option item)) :=
  section_loop sect_id [] (fst g) (snd g).

(** ** Columns, xmlmodel.py 281-315 [wrap_columns] *)

Definition columns_item : item := mkItem "ColumnSet" 0 [].

(** Paragraph.SplitFlags(split).new_columnsdef: bit 1. *)
Definition new_columnsdef (it : item) : res bool :=
  match attr_get "split" (i_attrs it) with
  | None => Raise KeyError
  | Some (VInt split) | Some (VFlags _ split) => Ok (Z.testbit split 1)
  | Some _ => Raise TypeError
  end.

Fixpoint columns_loop (stack : list item) (evs : list (event (option item))) (o : outcome) : gen (event item) :=
  match evs with
  | [] => ([], o)
  | EStart None :: _ | EEnd None :: _ => ([], Failed TypeError)      (* None cannot be unpacked *)
  | EStart (Some it) :: rest =>
      if model_is "Paragraph" it then
        match new_columnsdef it with
        | Raise e => ([], Failed e)
        | Ok true =>
            match stack with
            | [] => ([], Failed IndexError)
            | top :: st =>
                if model_is "ColumnSet" top then
                  gapp [EEnd top; EStart columns_item; EStart it] (columns_loop (columns_item :: st) rest o)
                else gapp [EStart columns_item; EStart it] (columns_loop (columns_item :: stack) rest o)
            end
        | Ok false => gcons (EStart it) (columns_loop stack rest o)
        end
      else gcons (EStart it) (columns_loop (it :: stack) rest o)
  | EEnd (Some it) :: rest =>
      if model_is "Paragraph" it then gcons (EEnd it) (columns_loop stack rest o)
      else
        match stack with
        | [] => ([], Failed IndexError)
        | top :: st =>
            if String.eqb (i_model it) (i_model top) then gcons (EEnd it) (columns_loop st rest o)
            else if model_is "ColumnSet" top then
              match st with
              | [] => ([EEnd top], Failed IndexError)
              | _ :: st' => gapp [EEnd top; EEnd it] (columns_loop st' rest o)
              end
            else ([], Failed AssertionError)
        end
  end.
Definition wrap_columns (g : gen (event (option item))) : gen (event item) := columns_loop [] (fst g) (snd g).

(** ** Section.events, xmlmodel.py 744-760 *)
Definition section_events (sect_id : option Z) (modelevents : gen (event item)) : gen (event item) :=
  let events := make_texts_linesegmented_and_charshaped modelevents in
  let events := make_extended_controls_inline events in
  let events := match_field_start_end events in
  let events := make_paragraphs_children_of_listheader events in
  let events := make_cells_children_of_tablebody events in
  let events := restructure_tablebody events in
  let events := tokenize_text_by_lang events in
  let events := wrap_section sect_id events in
  wrap_columns events.

(** ** Unique ids, xmlmodel.py 71-91 [give_elements_unique_id] *)

(** The four kinds: model, attribute. *)
Definition id_attribute (it : item) : option string :=
  if model_is "Paragraph" it then Some "paragraph_id"
  else if model_is "TableControl" it then Some "table_id"
  else if model_is "GShapeObjectControl" it then Some "gshape_id"
  else if model_is "ShapeComponent" it then Some "shape_id"
  else None.

(** The four counters. *)
Definition counters := (Z * Z * Z * Z)%type.
Definition next_id (it : item) (c : counters) : Z * counters :=
  let '(p, t, g, s) := c in
  if model_is "Paragraph" it then (p, (p + 1, t, g, s))
  else if model_is "TableControl" it then (t, (p, t + 1, g, s))
  else if model_is "GShapeObjectControl" it then (g, (p, t, g + 1, s))
  else (s, (p, t, g, s + 1)).

(** [given] is what has been assigned: the attribute dict (by identity), key and
    value, last first.  An end event shows the dict as it is then. *)
Fixpoint given_ids (ref : Z) (given : list (Z * (string * Z))) (it : item) : item :=
  match given with
  | [] => it
  | (r, (key, n)) :: rest => let it' := given_ids ref rest it in if r =? ref then set_item key (VInt n) it' else it'
  end.

Fixpoint ids_loop (c : counters) (given : list (Z * (string * Z))) (evs : list (event item)) (o : outcome) : gen (event item) :=
  match evs with
  | [] => ([], o)
  | EStart it :: rest =>
      match id_attribute it with
      | Some key =>
          let (n, c') := next_id it c in
          let given' := (i_ref it, (key, n)) :: given in
          gcons (EStart (given_ids (i_ref it) given' it)) (ids_loop c' given' rest o)
      | None => gcons (EStart it) (ids_loop c given rest o)
      end
  | EEnd it :: rest =>
      gcons (EEnd (match id_attribute it with Some _ => given_ids (i_ref it) given it | None => it end)) (ids_loop c given rest o)
  end.
Definition give_elements_unique_id (g : gen (event item)) : gen (event item) := ids_loop (0, 0, 0, 0) [] (fst g) (snd g).
