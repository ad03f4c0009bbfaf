(** Model of the JSON forms of records and models: [record_to_json] of
    src/hwp5/recordstream.py 115-118, [ModelJsonEncoder] and [model_to_json] of
    src/hwp5/binmodel/__init__.py 406-424, with json.dumps as called by
    src/hwp5/utils.py 83-89 and src/hwp5/proc/models.py 202-206
    (sort_keys=True, indent=2). *)
From Coq Require Import ZArith String List Bool.
From Verif Require Import Base Model_Text Model_Dataio Model_Record Model_ParaText Model_Bintype Model_Models Model_Readers.
Import ListNotations.
Open Scope Z_scope.

(** What is given to json.dumps: ints (also int subclasses), floats (bit
    pattern), texts, bytes, lists or tuples, dicts with text keys. *)
Inductive pyjson : Type :=
| JInt (n : Z)
| JFloat (bits : Z)
| JStr (t : list Z)
| JBytes (b : list Z)
| JList (l : list pyjson)
| JDict (d : list (list Z * pyjson)).

(** Python's own json.encoder.py_encode_basestring_ascii: one character. *)
Definition json_escape (c : Z) : list Z :=
  if c =? 34 then [92; 34]
  else if c =? 92 then [92; 92]
  else if (32 <=? c) && (c <=? 126) then [c]
  else if c =? 10 then [92; 110]
  else if c =? 13 then [92; 114]
  else if c =? 9 then [92; 116]
  else if c =? 12 then [92; 102]
  else if c =? 8 then [92; 98]
  else if c <? 0x10000 then [92; 117] ++ fmt_x 4 c
  else let n := c - 0x10000 in
       [92; 117] ++ fmt_x 4 (Z.lor 0xd800 (Z.land (Z.shiftr n 10) 0x3ff)) ++
       [92; 117] ++ fmt_x 4 (Z.lor 0xdc00 (Z.land n 0x3ff)).

Definition json_string (t : list Z) : list Z := [34] ++ concat (map json_escape t) ++ [34].

(** Python's comparison of texts, and [sorted] on the keys of a dict. *)
Fixpoint text_lt (a b : list Z) : bool :=
  match a, b with
  | [], [] => false
  | [], _ :: _ => true
  | _ :: _, [] => false
  | x :: a', y :: b' => if x <? y then true else if y <? x then false else text_lt a' b'
  end.
Fixpoint insert_item {A} (kv : list Z * A) (l : list (list Z * A)) : list (list Z * A) :=
  match l with
  | [] => [kv]
  | kv' :: r => if text_lt (fst kv') (fst kv) then kv' :: insert_item kv r else kv :: l
  end.
Definition sort_items {A} (l : list (list Z * A)) : list (list Z * A) := fold_right insert_item [] l.

Section Json.
  (** float.__repr__ of a finite number. *)
  Variable float_repr : Z -> list Z.

  (** json.encoder.floatstr with allow_nan=True. *)
  Definition float_exponent (bits : Z) : Z := Z.land (Z.shiftr bits 52) 0x7ff.
  Definition float_mantissa (bits : Z) : Z := Z.land bits (2 ^ 52 - 1).
  Definition json_float (bits : Z) : list Z :=
    if float_exponent bits =? 0x7ff then
      if float_mantissa bits =? 0 then
        (if Z.testbit bits 63 then zs "-Infinity" else zs "Infinity")
      else zs "NaN"
    else float_repr bits.

  (** json.encoder._make_iterencode with indent 2 (separators ',' and ': '),
      at nesting depth [level].  Bytes go through [ModelJsonEncoder.default]
      (__init__.py 408-411): decoded as latin1, then encoded as text.  The
      items of a dict are encoded before they are sorted; in Python it is the
      other way round. *)
  Definition newline_indent (level : Z) : list Z := 10 :: repeat_z 32 (2 * level).

  Definition json_brackets (level : Z) (open close : Z) (parts : list (list Z)) : list Z :=
    match parts with
    | [] => [open; close]
    | _ => [open] ++ newline_indent (level + 1) ++ join (44 :: newline_indent (level + 1)) parts ++ newline_indent level ++ [close]
    end.

  Fixpoint json_encode (level : Z) (v : pyjson) {struct v} : list Z :=
    match v with
    | JInt n => fmt_d n
    | JFloat bits => json_float bits
    | JStr t => json_string t
    | JBytes b => json_string b
    | JList l => json_brackets level 91 93 (map (json_encode (level + 1)) l)
    | JDict d =>
        json_brackets level 123 125
          (map (fun kt => json_string (fst kt) ++ [58; 32] ++ snd kt)
               (sort_items (map (fun kv => (fst kv, json_encode (level + 1) (snd kv))) d)))
    end.
  Definition json_dumps (v : pyjson) : list Z := json_encode 0 v.

  (** The entries of a record dict (recordstream.py 40-47), the payload as given. *)
  Definition record_items (r : record) (payload : pyjson) : list (list Z * pyjson) :=
    [(zs "tagid", JInt (r_tagid r)); (zs "tagname", JStr (r_tagname r)); (zs "level", JInt (r_level r));
     (zs "size", JInt (r_size r)); (zs "payload", payload)] ++
    match r_seqno r with Some n => [(zs "seqno", JInt n)] | None => [] end.

  (** list(dumpbytes(...)) *)
  Definition json_dump (b : list Z) : pyjson := JList (map JStr (fst (dumpbytes b false))).

  (** recordstream.py 115-118 [record_to_json] *)
  Definition record_to_json (r : record) : res (list Z) :=
    Ok (json_dumps (JDict (record_items r (json_dump (r_payload r))))).

  (** The chunks of a paragraph text (controlchar.py 185-202, tagid51_para_text.py 39-52). *)
  Definition json_control (c : control) : pyjson :=
    match c with
    | CtlChar code => JDict [(zs "code", JInt code)]
    | CtlTab code width u0 u1 u2 =>
        JDict [(zs "code", JInt code);
               (zs "param", JDict [(zs "width", JInt width); (zs "unknown0", JInt u0);
                                   (zs "unknown1", JInt u1); (zs "unknown2", JBytes u2)])]
    | CtlObj code chid param =>
        JDict [(zs "code", JInt code); (zs "chid", JStr chid); (zs "param", JBytes param)]
    end.
  Definition json_chunk (x : (Z * Z) * chunk) : pyjson :=
    JList [JList [JInt (fst (fst x)); JInt (snd (fst x))];
           match snd x with ChText t => JStr t | ChCtl c => json_control c end].

  (** A value as json.dumps sees it: flags and enum members are ints. *)
  Fixpoint json_value_of (v : value) : pyjson :=
    match v with
    | VInt n => JInt n
    | VDouble bits => JFloat bits
    | VFlags _ n => JInt n
    | VText t => JStr t
    | VBytes b => JBytes b
    | VChunks l => JList (map json_chunk l)
    | VTuple l => JList (map json_value_of l)
    | VList l => JList (map json_value_of l)
    | VDict d => JDict (map (fun kv => (zs (fst kv), json_value_of (snd kv))) d)
    end.

  (** __init__.py 414-424 [model_to_json]; the model dict is the record dict
      with 'type', 'content', 'binevents' and perhaps 'unparsed' added. *)
  Definition model_to_json (rm : record * model) : res (list Z) :=
    let (r, m) := rm in
    Ok (json_dumps (JDict (record_items r (json_dump (r_payload r)) ++
      [(zs "type", JStr (zs (m_type m))); (zs "content", json_value_of (VDict (m_content m)))] ++
      match m_unparsed m with [] => [] | u => [(zs "unparsed", json_dump u)] end))).

  (** recordstream.py 170-172 [records_json] and binmodel 475-477 [models_json];
      what [generate] gives is what [dump] writes (utils.py 96-98). *)
  Definition records_json (records : gen record) : gen (list Z) :=
    json_objects_generate record_to_json records.
  Definition models_json (models : gen (record * model)) : gen (list Z) :=
    json_objects_generate model_to_json models.
End Json.
