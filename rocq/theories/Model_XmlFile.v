(** Model of src/hwp5/xmlmodel.py 625-817: the model events of sections, of the
    summary information and of whole documents, and of 71-91 for these. *)
From Coq Require Import ZArith String List Bool.
From Verif Require Import Base Model_Text Model_Dataio Model_Record Model_Tree Model_ParaText Model_Bintype Model_Classes Model_Layouts Model_Models
  Model_Oleprops Model_Embed Model_XmlText Model_XmlElement.
From Verif Require Model_XmlModel.
Import ListNotations.
Open Scope string_scope.
Open Scope list_scope.
Open Scope Z_scope.

(** ** Sections

    The passes of Model_XmlModel look at some of the attributes only; here is how
    the attributes of a model appear to them, and back. *)
Fixpoint ints_of (l : list value) : option (list Z) :=
  match l with
  | [] => Some []
  | VInt n :: r => match ints_of r with Some ns => Some (n :: ns) | None => None end
  | _ => None
  end.
Fixpoint pairs_of (l : list value) : option (list (Z * Z)) :=
  match l with
  | [] => Some []
  | VTuple [VInt a; VInt b] :: r => match pairs_of r with Some ps => Some ((a, b) :: ps) | None => None end
  | _ => None
  end.
Fixpoint numbers_of (d : list (string * value)) : option (list (string * Z)) :=
  match d with
  | [] => Some []
  | (k, VInt n) :: r | (k, VFlags _ n) :: r => match numbers_of r with Some ns => Some ((k, n) :: ns) | None => None end
  | _ => None
  end.
Fixpoint lines_of (l : list value) : option (list (list (string * Z))) :=
  match l with
  | [] => Some []
  | VDict d :: r => match numbers_of d, lines_of r with Some n, Some ns => Some (n :: ns) | _, _ => None end
  | _ => None
  end.

Definition pass_value (type key : string) (v : value) : Model_XmlModel.aval :=
  let is t k := String.eqb type t && String.eqb key k in
  match v with
  | VInt n => Model_XmlModel.VInt n
  | VFlags g n => Model_XmlModel.VFlags g n
  | VText t => Model_XmlModel.VText t
  | VChunks l => Model_XmlModel.VChunks l
  | VList l =>
      if is "TableBody" "rowcols" then match ints_of l with Some ns => Model_XmlModel.VInts ns | None => Model_XmlModel.VOther v end
      else if is "ParaCharShape" "charshapes" then match pairs_of l with Some ps => Model_XmlModel.VCharShapes ps | None => Model_XmlModel.VOther v end
      else if is "ParaLineSeg" "linesegs" then match lines_of l with Some ls => Model_XmlModel.VLineSegs ls | None => Model_XmlModel.VOther v end
      else Model_XmlModel.VOther v
  | _ => Model_XmlModel.VOther v
  end.
(** controlchar.py 123-130: the name of the class, which is what is written
    (xmlformat.py 65-66) *)
Definition kind_name (k : ctl_kind) : list Z :=
  match k with KChar => zs "CHAR" | KInline => zs "INLINE" | KExtended => zs "EXTENDED" end.
(** The flags of a line segment become their number here; in an attribute of a
    flags type both are written alike (xmlformat.py 73-78). *)
Definition value_of (a : Model_XmlModel.aval) : value :=
  match a with
  | Model_XmlModel.VInt n => VInt n
  | Model_XmlModel.VFlags g n => VFlags g n
  | Model_XmlModel.VText t => VText t
  | Model_XmlModel.VLang s => VText (zs s)
  | Model_XmlModel.VKind k => VText (kind_name k)
  | Model_XmlModel.VInts l => VList (map VInt l)
  | Model_XmlModel.VChunks l => VChunks l
  | Model_XmlModel.VCharShapes l => VList (map (fun p => VTuple [VInt (fst p); VInt (snd p)]) l)
  | Model_XmlModel.VLineSegs l => VList (map (fun d => VDict (map (fun kn => (fst kn, VInt (snd kn))) d)) l)
  | Model_XmlModel.VOther v => v
  end.
Definition pass_item (ref : Z) (m : model) : Model_XmlModel.item :=
  Model_XmlModel.mkItem (m_type m) ref (map (fun kv => (fst kv, pass_value (m_type m) (fst kv) (snd kv))) (m_content m)).
Definition item_values (it : Model_XmlModel.item) : list (string * value) :=
  map (fun kv => (fst kv, value_of (snd kv))) (Model_XmlModel.i_attrs it).

(** What an element of this name is made for: binmodel/__init__.py has the classes
    Text and ControlChar, xmlmodel.py TableRow (443-444) and ColumnSet (281-282). *)
Definition class_named (name : string) : emodel :=
  if existsb (String.eqb name) ["Text"; "ControlChar"; "TableRow"; "ColumnSet"] then Other_class name
  else if String.eqb name "LineSeg" then line_model
  else record_model name.
(** Line segments, rows and columns have contexts without a version; it is not
    asked for there. *)
Definition shown_item (version : list Z) (it : Model_XmlModel.item) : mitem :=
  mkMitem version (class_named (Model_XmlModel.i_model it)) (item_values it).

Definition event_map {A B} (f : A -> B) (e : event A) : event B :=
  match e with EStart x => EStart (f x) | EEnd x => EEnd (f x) end.

(** The identities of the attribute dicts: those of the records are 1, 2, ... *)
Fixpoint pass_items (ref : Z) (l : list (record * model)) : list (Z * Model_XmlModel.item) :=
  match l with
  | [] => []
  | (r, m) :: rest => (r_level r, pass_item ref m) :: pass_items (ref + 1) rest
  end.
(** xmlmodel.py 625-632 and 548-552; the root item as in Model_XmlElement *)
Definition section_modelevents (g : gen (record * model)) : gen (event Model_XmlModel.item) :=
  prefix_event_iter None [Model_XmlModel.mkItem "" 0 []] (pass_items 1 (fst g)) (snd g).

(** xmlmodel.py 744-760 [Section.events] *)
Definition section_mevents (section_idx : option Z) (version : list Z) (g : gen (record * model)) : gen (event mitem) :=
  let events := Model_XmlModel.section_events section_idx (section_modelevents g) in
  (map (event_map (shown_item version)) (fst events), snd events).

(** itertools.chain *)
Fixpoint chain {A} (l : list (gen A)) : gen A :=
  match l with [] => ([], Finished) | g :: r => gthen g (chain r) end.

(** xmlmodel.py 767-779 [Sections.events]: the sections with their numbers *)
Definition bodytext_events (version : list Z) (sections : list (Z * gen (record * model))) : gen (event mitem) :=
  wrap_modelevents (mkMitem [] (Other_class "BodyText") []) (chain (map (fun s => section_mevents (Some (fst s)) version (snd s)) sections)).

(** ** Summary information *)

(** msoleprops.py 329-334 *)
Definition entry_model : emodel :=
  Struct_type "DictionaryEntry"
    [(MCons node "id" None None (TPrim node (PFmt UINT32))
     (MCons node "name" None None (TVar node UINT32 (TPrim node (PFmt BYTE)))
     (MNil node)), [])].

Section Summary.
  (** the text of a FILETIME (Model_Oleprops) *)
  Variable time_text : Z -> res (list Z).

  (** msoleprops.py 43-84: the name of the class of a type code *)
  Definition vt_name (code : Z) : res (list Z) :=
    if Z.eqb code VT_I4 then Ok (zs "VT_I4")
    else if Z.eqb code VT_LPWSTR then Ok (zs "VT_LPWSTR")
    else if Z.eqb code VT_FILETIME then Ok (zs "VT_FILETIME")
    else Raise AttributeError.                    (* None has no __name__ *)

  (** xmlmodel.py 721-728 [getDictionaryEntryEvents] *)
  Definition entry_events (e : Z * list Z) : gen (event mitem) :=
    wrap_modelevents (mkMitem [] entry_model [("id", VInt (fst e)); ("name", VText (snd e))]) ([], Finished).

  (** What str makes of a value when it is written; an exception of str is raised
      while its element is made, which is when its event is taken. *)
  Definition written_value (v : pvalue) : res value :=
    match v with
    | PVInt n => Ok (VInt n)
    | PVText t => Ok (VText t)
    | PVTime n => let? t := time_text n in Ok (VText t)
    | PVDict _ => Raise (OtherError 7)            (* only the dictionary, which is not written so *)
    end.

  (** xmlmodel.py 696-714 [getPropertyEvents], 716-719 [getDictionaryEvents].  The
      two failures cannot come from a stream that was read: the types are known
      there, and the dictionary is the property 0. *)
  Definition property_events (p : property) : gen (event mitem) :=
    let label := match p_label p with Some t => [("id_label", VText t)] | None => [] end in
    match match p_code p with
          | Some code => let? t := vt_name code in Ok [("type", VText t); ("type_code", VText (zs "0x" ++ fmt_x 4 code))]
          | None => Ok []
          end with
    | Raise e => ([], Failed e)
    | Ok type =>
        let content := [("id", VInt (p_id p)); ("offset", VInt (p_offset p))] ++ label ++ type in
        if Z.eqb (p_id p) PID_DICTIONARY then
          match p_value p with
          | PVDict entries => wrap_modelevents (mkMitem [] (Other_class "Property") content) (chain (map entry_events entries))
          | _ => ([], Failed AttributeError)
          end
        else
          match written_value (p_value p) with
          | Raise e => ([], Failed e)
          | Ok v => wrap_modelevents (mkMitem [] (Other_class "Property") (content ++ [("value", v)])) ([], Finished)
          end
    end.

  (** xmlmodel.py 678-694 [getPropertySetEvents] *)
  Definition property_set_events (s : property_set) : gen (event mitem) :=
    wrap_modelevents (mkMitem [] (Other_class "PropertySet") [("fmtid", VText (uuid_str (ps_fmtid s))); ("offset", VInt (ps_offset s))])
      (chain (map property_events (sorted_properties (ps_properties s)))).

  (** xmlmodel.py 657-676 [getPropertySetStreamEvents], 640-646
      [HwpSummaryInfo.events] *)
  Definition summary_events (s : property_set_stream) : gen (event mitem) :=
    let h := pss_header s in
    wrap_modelevents (mkMitem [] (Other_class "HwpSummaryInfo") [])
      (wrap_modelevents (mkMitem [] (Other_class "PropertySetStream")
         [("byte_order", VText (fmt_x 4 (psh_byteOrder h))); ("version", VText (fmt_d (psh_version h)));
          ("system_identifier", VText (fmt_x 8 (psh_systemIdentifier h))); ("clsid", VText (uuid_str (psh_clsid h)))])
         (chain (map property_set_events (pss_sets s)))).

  (** ** Documents *)

  (** xmlmodel.py 71-91 [give_elements_unique_id].  Model_XmlModel has the same
      pass with the identities of the dicts; here a start event is its dict at that
      time, and of an end event only the name is looked at afterwards. *)
  Definition id_key (name : string) : option string :=
    if String.eqb name "Paragraph" then Some "paragraph_id"
    else if String.eqb name "TableControl" then Some "table_id"
    else if String.eqb name "GShapeObjectControl" then Some "gshape_id"
    else if String.eqb name "ShapeComponent" then Some "shape_id"
    else None.
  Definition next_number (name : string) (c : Z * Z * Z * Z) : Z * (Z * Z * Z * Z) :=
    let '(p, t, g, s) := c in
    if String.eqb name "Paragraph" then (p, (p + 1, t, g, s))
    else if String.eqb name "TableControl" then (t, (p, t + 1, g, s))
    else if String.eqb name "GShapeObjectControl" then (g, (p, t, g + 1, s))
    else (s, (p, t, g, s + 1)).
  Fixpoint give_ids (c : Z * Z * Z * Z) (evs : list (event mitem)) (o : outcome) : gen (event mitem) :=
    match evs with
    | [] => ([], o)
    | EStart it :: r =>
        match id_key (model_name (mi_model it)) with
        | Some key =>
            let (n, c') := next_number (model_name (mi_model it)) c in
            gcons (EStart (mkMitem (mi_version it) (mi_model it) (dict_set key (VInt n) (mi_attributes it)))) (give_ids c' r o)
        | None => gcons (EStart it) (give_ids c r o)
        end
    | EEnd it :: r => gcons (EEnd it) (give_ids c r o)
    end.

  (** xmlmodel.py 800-817 [Hwp5File.events]: the version and the summary of the
      file, how to read embedded data if it is asked for and there, the models of
      the document information and of the sections *)
  Definition hwp5file_events (embedbin : option (list Z -> res (list Z))) (version : list Z) (summary : property_set_stream)
      (docinfo : gen (record * model)) (sections : list (Z * gen (record * model))) : gen (event mitem) :=
    let events := chain [summary_events summary; docinfo_events embedbin version docinfo; bodytext_events version sections] in
    let events := wrap_modelevents (mkMitem [] hwpdoc_model [("version", VTuple (map VInt version))]) events in
    give_ids (0, 0, 0, 0) (fst events) (snd events).
End Summary.
