(** Model of the record models: src/hwp5/binmodel/__init__.py 243-549
    (parse_models, resolve_model_events, extension types, ModelStream, DocInfo)
    and the extension keys of binmodel/controls/_shared.py,
    tagid56_list_header.py, tagid71_ctrl_data.py and controls/table_control.py. *)
From Coq Require Import ZArith String List Bool.
From Verif Require Import Base Model_Text Model_Dataio Model_Record Model_Tree Model_ParaText Model_Bintype Model_Classes Model_Layouts.
Import ListNotations.
Open Scope string_scope.
Open Scope list_scope.
Open Scope Z_scope.

(** A parsed model: the dict of __init__.py 280-313 besides the record it
    extends.  'unparsed' is absent when nothing is left (285-287); here it is
    then empty.  Simplification: 'binevents' (309) shares the content dict, which
    is updated later; here the events keep the values they were reported with. *)
Record model : Type := mkModel {
  m_type : string;
  m_content : list (string * value);
  m_binevents : list (oev node);
  m_unparsed : list Z
}.

(** 'attributes' in cls.__dict__ (402) and the members of the class. *)
Definition class_fields (c : string) : option (list field) := dict_get c own_members.
Definition class_type (c : string) : ty node :=
  struct_type (match class_fields c with Some l => l | None => [] end).

(** __init__.py 361-362 *)
Definition model_type (tagid : Z) : string :=
  match zdict_get tagid tag_models with Some c => c | None => "UnknownTagModel" end.

(** The chid is a text; the registry is keyed by literals. *)
Fixpoint find_control (chid : list Z) (l : list (string * string)) : option string :=
  match l with
  | [] => None
  | (k, c) :: r => if list_eq_dec Z.eq_dec (zs k) chid then Some c else find_control chid r
  end.
Fixpoint find_list_header (key : string * bool) (l : list ((string * bool) * string)) : option string :=
  match l with
  | [] => None
  | (k, c) :: r => if String.eqb (fst k) (fst key) && Bool.eqb (snd k) (snd key) then Some c else find_list_header key r
  end.

(** __init__.py 369-372: the extension type, if there is one.  The keys:
    controls/_shared.py 56-58, tagid56_list_header.py 80-85 and
    tagid71_ctrl_data.py 51-55 (the parent of a record is always in the context;
    the root has no type: a KeyError).  Other classes have no extension_types. *)
Definition extension_of (base : string) (parent : node) (content : list (string * value)) : res (option string) :=
  if String.eqb base "Control" then
    match dict_get "chid" content with
    | None => Raise KeyError
    | Some (VText chid) => Ok (find_control chid control_models)
    | Some _ => Ok None
    end
  else if String.eqb base "ListHeader" then
    match n_type parent with
    | None => Raise KeyError
    | Some t => Ok (find_list_header (t, n_seen parent) list_header_models)
    end
  else if String.eqb base "ControlData" then
    match n_type parent with
    | None => Raise KeyError
    | Some t => Ok (dict_get t control_data_models)
    end
  else Ok None.

(** itertools.takewhile *)
Fixpoint takewhile {A} (p : A -> bool) (l : list A) : list A :=
  match l with [] => [] | x :: r => if p x then x :: takewhile p r else [] end.

(** __init__.py 398-403 [get_extension_mro] *)
Definition get_extension_mro (cls up_to : string) : list string :=
  rev (filter (fun c => match class_fields c with Some _ => true | None => false end)
              (takewhile (fun c => negb (String.eqb c up_to)) (mro class_mro_fuel cls))).

(** dict.update *)
Definition dict_update (d e : list (string * value)) : list (string * value) :=
  fold_left (fun d kv => dict_set (fst kv) (snd kv) d) e d.

(** One resolve_type_events pass (365-368, 378-383) through raise_on_errorevent
    (316-331): the events, the stream, and the dict of the last event. *)
Definition read_class (fuel : nat) (c : string) (parent : node) (version : list Z) (s : stream)
  : list (oev node) * stream * option (res (list (string * value))) :=
  match read_type_events node fuel (class_type c) parent (Some version) s with
  | (out, s', Finished) =>
      (out, s', Some (match rev out with
                      | [] => Raise UnboundLocalError
                      | e :: _ => match oev_value node e with
                                  | Some (VDict d) => Ok d
                                  | Some _ => Raise TypeError
                                  | None => Raise KeyError
                                  end
                      end))
  | (out, s', Failed e) => (out, s', Some (Raise e))
  | (out, s', OutOfFuel) => (out, s', None)
  end.

(** 378-384: the classes of the extension one after another. *)
Fixpoint read_extension (fuel : nat) (cs : list string) (parent : node) (version : list Z)
    (content : list (string * value)) (evs : list (oev node)) (s : stream)
  : list (oev node) * stream * option (res (list (string * value))) :=
  match cs with
  | [] => (evs, s, Some (Ok content))
  | c :: r =>
      match read_class fuel c parent version s with
      | (out, s', Some (Ok d)) => read_extension fuel r parent version (dict_update content d) (evs ++ out) s'
      | (out, s', x) => (evs ++ out, s', x)
      end
  end.

(** 303-313 [parse_model], 357-385 [resolve_model_events] and 284-287: the model
    of a record.  (The part after 386 is [on_child].) *)
Definition parse_model (fuel : nat) (version : list Z) (parent : node) (tagid : Z) (payload : list Z) : option (res model) :=
  let base := model_type tagid in
  match read_class fuel base parent version (open_bytes payload) with
  | (_, _, None) => None
  | (_, _, Some (Raise e)) => Some (Raise e)
  | (evs, s, Some (Ok content)) =>
      match extension_of base parent content with
      | Raise e => Some (Raise e)
      | Ok None => Some (Ok (mkModel base content evs (s_rest s)))
      | Ok (Some ext) =>
          match read_extension fuel (get_extension_mro ext base) parent version content evs s with
          | (_, _, None) => None
          | (_, _, Some (Raise e)) => Some (Raise e)
          | (evs', s', Some (Ok content')) => Some (Ok (mkModel ext content' evs' (s_rest s')))
          end
      end
  end.

(** 386-395, controls/table_control.py 29-36: only TableControl has on_child. *)
Definition on_child (parent : node) (child : model) : node :=
  match n_type parent with
  | Some t => if issubclass t "TableControl" && String.eqb (m_type child) "TableBody"
              then mkNode (n_type parent) (n_content parent) true else parent
  | None => parent
  end.
Definition model_node (m : model) : node := mkNode (Some (m_type m)) (Some (VDict (m_content m))) false.

(** 276-300 [parse_models], [parse_models_intern], [parse_models_with_parent]
    with prefix_ancestors_from_level (treeop.py 70-93): the ancestors are kept
    as stack, top first; what on_child changes is the parent on the stack. *)
Fixpoint parse_models_loop (fuel : nat) (version : list Z) (base : option Z) (stack : list node) (records : list record) (o : outcome)
  : gen (record * model) :=
  match records with
  | [] => ([], o)
  | r :: rest =>
      let b := match base with None => r_level r | Some b => b end in
      let level' := match base with None => 0 | Some b => r_level r - b end in
      match pop_to level' stack with
      | (_, Raise e) => ([], Failed e)
      | (_, Ok stack') =>
          match check_level level' stack', stack' with
          | Some e, _ => ([], Failed e)
          | None, [] => ([], Failed IndexError)                    (* ancestors[-1] *)
          | None, parent :: above =>
              match parse_model fuel version parent (r_tagid r) (r_payload r) with
              | None => ([], OutOfFuel)
              | Some (Raise e) => ([], Failed e)
              | Some (Ok m) =>
                  gcons (r, m) (parse_models_loop fuel version (Some b) (model_node m :: on_child parent m :: above) rest o)
              end
          end
      end
  end.

Definition parse_models (fuel : nat) (version : list Z) (records : gen record) : gen (record * model) :=
  parse_models_loop fuel version None [root_node] (fst records) (snd records).

(** 448-463 [ModelStream.models]: each top-level tree by itself. *)
Fixpoint chain_models (fuel : nat) (version : list Z) (groups : list (list record)) (o : outcome) : gen (record * model) :=
  match groups with
  | [] => ([], o)
  | g :: rest => match parse_models fuel version (g, Finished) with
                 | (out, Finished) => gapp out (chain_models fuel version rest o)
                 | (out, o') => (out, o')
                 end
  end.
Definition stream_models (fuel : nat) (version : list Z) (records : gen record) : gen (record * model) :=
  let groups := group_by_toplevel r_level records in
  chain_models fuel version (fst groups) (snd groups).

(** 436-448 [ModelStream.models] with treegroup=n: the records of one tree;
    without such a tree, parse_models iterates None. *)
Definition treegroup_models (fuel : nat) (version : list Z) (n : nat) (records : gen record) : gen (record * model) :=
  match records_treegroup n records with
  | Ok (Some g) => parse_models fuel version (g, Finished)
  | Ok None => ([], Failed TypeError)
  | Raise e => ([], Failed e)
  end.

(** 501-506 [DocInfo.idmappings]: the first one; None if there is none.  The
    models are read until it is found; a failure before that is raised. *)
Fixpoint find_model (p : model -> bool) (ms : list (record * model)) (o : outcome) : res (option model) :=
  match ms with
  | [] => match o with Finished => Ok None | Failed e => Raise e | OutOfFuel => Ok None end
  | (_, m) :: r => if p m then Ok (Some m) else find_model p r o
  end.
Definition idmappings (ms : gen (record * model)) : res (option model) :=
  find_model (fun m => String.eqb (m_type m) "IdMappings") (fst ms) (snd ms).

(** list[a:b] for 0 <= a <= b *)
Definition pyslice {A} (a b : Z) (l : list A) : list A := ztake (b - a) (zdrop a l).

(** 508-519 [DocInfo.facenames_by_lang] *)
Definition facenames_by_lang (ms : gen (record * model)) : res (list (string * list model)) :=
  match snd ms with
  | Failed e => Raise e
  | OutOfFuel => Raise (OtherError 0)                 (* excluded *)
  | Finished =>
      let facenames := filter (fun m => String.eqb (m_type m) "FaceName") (map snd (fst ms)) in
      let fix loop (langs : list string) (offset : Z) (acc : list (string * list model)) : res (list (string * list model)) :=
        match langs with
        | [] => Ok acc
        | lang :: r =>
            let? im := idmappings ms in
            match im with
            | None => Raise TypeError                             (* None['content'] *)
            | Some m =>
                match dict_get (lang ++ "_fonts") (m_content m) with
                | None => Raise KeyError
                | Some v => let? n_fonts := int_of_value v in
                            loop r (offset + n_fonts) (dict_set lang (pyslice offset (offset + n_fonts) facenames) acc)
                end
            end
        end in
      loop ["ko"; "en"; "cn"; "jp"; "other"; "symbol"; "user"] 0 []
  end.

(** 521-526 [DocInfo.charshapes], [get_charshape]; nth (recordstream.py 121-125)
    gives None past the end. *)
Definition get_charshape (ms : gen (record * model)) (id : nat) : res (option model) :=
  let charshapes := filter (fun m => String.eqb (m_type m) "CharShape") (map snd (fst ms)) in
  match nth_error charshapes id with
  | Some m => Ok (Some m)
  | None => match snd ms with Failed e => Raise e | _ => Ok None end
  end.

(** l[i]: counted from the end when negative *)
Definition pyindex {A} (l : list A) (i : Z) : res A :=
  match znth (if i <? 0 then zlen l + i else i) l with Some x => Ok x | None => Raise IndexError end.

(** 528-531 [DocInfo.charshape_lang_facename] *)
Definition charshape_lang_facename (ms : gen (record * model)) (id : nat) (lang : string) : res model :=
  let? cs := get_charshape ms id in
  match cs with
  | None => Raise TypeError                                       (* None['content'] *)
  | Some m =>
      match dict_get "font_face" (m_content m) with
      | Some (VDict d) =>
          match dict_get lang d with
          | None => Raise KeyError
          | Some v => let? by_lang := facenames_by_lang ms in
                      match dict_get lang by_lang with
                      | None => Raise KeyError
                      | Some l => let? i := int_of_value v in pyindex l i
                      end
          end
      | Some _ => Raise TypeError
      | None => Raise KeyError
      end
  end.
