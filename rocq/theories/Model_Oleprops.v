(** Model of src/hwp5/msoleprops.py (OLE property sets), src/hwp5/summaryinfo.py
    and the HwpSummaryInfo class of src/hwp5/filestructure.py. *)
From Coq Require Import ZArith String List Bool.
From Verif Require Import Base Model_Text Model_Dataio Model_Bintype Model_XmlText.
Import ListNotations.
Open Scope string_scope.
Open Scope list_scope.
Open Scope Z_scope.

(** Computations that read with [read_type] and so need fuel: [None] is out of
    fuel. *)
Definition fres (X : Type) : Type := option (res X).
Definition fbind {X Y} (x : fres X) (k : X -> fres Y) : fres Y :=
  match x with None => None | Some (Raise e) => Some (Raise e) | Some (Ok a) => k a end.
Definition fret {X} (x : X) : fres X := Some (Ok x).
Definition fraise {X} (e : exn) : fres X := Some (Raise e).
Definition flift {X} (r : res X) : fres X := Some r.

(** [f.seek(pos)] of an in-memory stream; positions behind the end are allowed. *)
Definition seek (b : list Z) (pos : Z) : stream := mkStream (zdrop pos b) pos.

(** msoleprops.py 253-256 [PropertyDesc.attributes] *)
Definition property_desc_type : ty unit :=
  TStruct unit
    (MCons unit "id" None None (TPrim unit (PFmt UINT32))
    (MCons unit "offset" None None (TPrim unit (PFmt UINT32))
    (MNil unit))).
(** 298-303 [TypedPropertyValue.attributes]; [Flags(UINT32, 0, 16, 'code')] *)
Definition typed_property_value_type : ty unit :=
  TStruct unit
    (MCons unit "type" None None (TFlags unit UINT32 [("code", (0, 16, None))])
    (MNil unit)).
(** 329-334 [DictionaryEntry.attributes] *)
Definition dictionary_entry_type : ty unit :=
  TStruct unit
    (MCons unit "id" None None (TPrim unit (PFmt UINT32))
    (MCons unit "name" None None (TVar unit UINT32 (TPrim unit (PFmt BYTE)))
    (MNil unit))).
(** 353-356 [Dictionary.attributes] *)
Definition dictionary_type : ty unit :=
  TStruct unit
    (MCons unit "entries" None None (TVar unit UINT32 dictionary_entry_type)
    (MNil unit)).
(** 430-434 [PropertySetHeader.attributes] *)
Definition property_set_header_type : ty unit :=
  TStruct unit
    (MCons unit "bytesize" None None (TPrim unit (PFmt UINT32))
    (MCons unit "propDescList" None None (TVar unit UINT32 property_desc_type)
    (MNil unit))).
(** 443-446 [PropertySetDesc.attributes] *)
Definition property_set_desc_type : ty unit :=
  TStruct unit
    (MCons unit "fmtid" None None (TFixed unit (TPrim unit (PFmt BYTE)) 16)
    (MCons unit "offset" None None (TPrim unit (PFmt UINT32))
    (MNil unit))).
(** 481-487 [PropertySetStreamHeader.attributes] *)
Definition property_set_stream_header_type : ty unit :=
  TStruct unit
    (MCons unit "byteOrder" None None (TPrim unit (PFmt UINT16))
    (MCons unit "version" None None (TPrim unit (PFmt UINT16))
    (MCons unit "systemIdentifier" None None (TPrim unit (PFmt UINT32))
    (MCons unit "clsid" None None (TFixed unit (TPrim unit (PFmt BYTE)) 16)
    (MCons unit "propsetDescList" None None (TVar unit UINT32 property_set_desc_type)
    (MNil unit)))))).

(** [read_type(T, context, f)] without a version. *)
Definition rtype (fuel : nat) (t : ty unit) (s : stream) : fres value * stream := read_type unit fuel t tt None s.

(** ** Conversions of the read dictionaries (the [fromDict] class methods) *)
Definition item_of (k : string) (v : value) : res value :=
  match v with
  | VDict d => match dict_get k d with Some x => Ok x | None => Raise KeyError end
  | _ => Raise TypeError
  end.
Definition int_item (k : string) (v : value) : res Z := let? x := item_of k v in int_of_value x.
Fixpoint map_res {X Y} (f : X -> res Y) (l : list X) : res (list Y) :=
  match l with [] => Ok [] | x :: r => let? y := f x in let? ys := map_res f r in Ok (y :: ys) end.
Definition items_of (k : string) (v : value) : res (list value) :=
  let? x := item_of k v in
  match x with VList l | VTuple l => Ok l | _ => Raise TypeError end.

(** 669-673 [uuid_from_bytes_tuple]; a UUID is kept as its 16 bytes in the order
    of its text, [UUID(bytes_le=...)] reverses the first three groups. *)
Definition uuid_from_bytes_le (t : list Z) : res (list Z) :=
  match t with
  | [a0; a1; a2; a3; b0; b1; c0; c1; d0; d1; e0; e1; e2; e3; e4; e5] =>
      Ok [a3; a2; a1; a0; b1; b0; c1; c0; d0; d1; e0; e1; e2; e3; e4; e5]
  | _ => Raise ValueError
  end.
(** [str(uuid)]: eight, four, four, four and twelve hexadecimal digits. *)
Definition uuid_str (u : list Z) : list Z :=
  let hex := concat (map (fmt_x 2) u) in
  zslice 0 8 hex ++ zs "-" ++ zslice 8 12 hex ++ zs "-" ++ zslice 12 16 hex ++ zs "-" ++ zslice 16 20 hex ++ zs "-" ++ zdrop 20 hex.
(** 676-677 [nullterminated_string] *)
Definition nullterminated_string (bs : list Z) : list Z := removelast bs.

(** 249-251 [PropertyDesc.fromDict]: id and offset *)
Definition property_desc (v : value) : res (Z * Z) :=
  let? id := int_item "id" v in
  let? offset := int_item "offset" v in
  Ok (id, offset).
(** 294-296 [TypedPropertyValue.fromDict] *)
Definition typed_property_code (v : value) : res Z :=
  let? x := item_of "type" v in
  match x with
  | VFlags g n => match dict_get "code" g with Some (lsb, msb, _) => Ok (get_int_value lsb msb n) | None => Raise AttributeError end
  | _ => Raise AttributeError
  end.
(** 322-327 [DictionaryEntry.fromDict] *)
Definition dictionary_entry (v : value) : res (Z * list Z) :=
  let? id := int_item "id" v in
  let? name := items_of "name" v in
  let? bs := map_res int_of_value name in
  Ok (id, nullterminated_string bs).
(** 345-351 [Dictionary.fromDict] *)
Definition dictionary_entries (v : value) : res (list (Z * list Z)) :=
  let? l := items_of "entries" v in
  map_res dictionary_entry l.
(** 414-428 [PropertySetHeader.fromDict] *)
Definition property_set_header (v : value) : res (Z * list (Z * Z)) :=
  let? bytesize := int_item "bytesize" v in
  let? l := items_of "propDescList" v in
  let? descs := map_res property_desc l in
  Ok (bytesize, descs).
Definition uuid_item (k : string) (v : value) : res (list Z) :=
  let? l := items_of k v in
  let? bs := map_res int_of_value l in
  uuid_from_bytes_le bs.
(** 448-453 [PropertySetDesc.fromDict] *)
Definition property_set_desc (v : value) : res (list Z * Z) :=
  let? fmtid := uuid_item "fmtid" v in
  let? offset := int_item "offset" v in
  Ok (fmtid, offset).
(** 456-479 [PropertySetStreamHeader] and its fromDict *)
Record stream_header := mkStreamHeader {
  psh_byteOrder : Z; psh_version : Z; psh_systemIdentifier : Z; psh_clsid : list Z; psh_descs : list (list Z * Z) }.
Definition property_set_stream_header (v : value) : res stream_header :=
  let? byteOrder := int_item "byteOrder" v in
  let? version := int_item "version" v in
  let? systemIdentifier := int_item "systemIdentifier" v in
  let? clsid := uuid_item "clsid" v in
  let? l := items_of "propsetDescList" v in
  let? descs := map_res property_set_desc l in
  Ok (mkStreamHeader byteOrder version systemIdentifier clsid descs).

(** ** Property values *)
Inductive pvalue : Type :=
| PVInt (n : Z)
| PVText (t : list Z)
| PVTime (n : Z)      (* FILETIME, 87-101 *)
| PVDict (entries : list (Z * list Z)).

Definition read_int (fuel : nat) (f : binfmt) (s : stream) : fres Z * stream :=
  let (r, s') := rtype fuel (TPrim unit (PFmt f)) s in
  (fbind r (fun v => flift (int_of_value v)), s').

(** 44-84: [vt_types] and the [read_value] methods *)
Definition VT_I4 : Z := 0x0003.
Definition VT_LPWSTR : Z := 0x001F.
Definition VT_FILETIME : Z := 0x0040.
Definition read_value (fuel : nat) (code : Z) (s : stream) : fres pvalue :=
  if Z.eqb code VT_I4 then fbind (fst (read_int fuel INT32 s)) (fun n => fret (PVInt n))
  else if Z.eqb code VT_LPWSTR then
    let (r, s') := read_int fuel UINT32 s in
    fbind r (fun length =>
    let data := fst (stream_read (length * 2) s') in
    fbind (flift (utf16le_decode data)) (fun t => fret (PVText (removelast t))))
  else if Z.eqb code VT_FILETIME then
    let (r, s') := read_int fuel UINT32 s in
    fbind r (fun lword =>
    fbind (fst (read_int fuel UINT32 s')) (fun hword =>
    fret (PVTime (Z.lor (Z.shiftl hword 32) lword))))
  else fraise KeyError.

(** 230-240 [Property]; the label is the identifier's name. *)
Record property := mkProperty {
  p_id : Z; p_offset : Z; p_label : option (list Z); p_code : option Z; p_value : pvalue }.

(** 259-283 [PropertyReader.read]: [off] is the offset of the property set. *)
Definition read_property (fuel : nat) (b : list Z) (off : Z) (desc : Z * Z) (label : option (list Z)) : fres property :=
  let (r, s) := rtype fuel typed_property_value_type (seek b (off + snd desc)) in
  fbind r (fun v =>
  fbind (flift (typed_property_code v)) (fun code =>
  fbind (read_value fuel code s) (fun x =>
  fret (mkProperty (fst desc) (snd desc) label (Some code) x)))).

(** 373-388 [DictionaryReader.read] *)
Definition read_dictionary (fuel : nat) (b : list Z) (off : Z) (desc : Z * Z) (label : option (list Z)) : fres property :=
  fbind (fst (rtype fuel dictionary_type (seek b (off + snd desc)))) (fun v =>
  fbind (flift (dictionary_entries v)) (fun entries =>
  fret (mkProperty (fst desc) (snd desc) label None (PVDict entries)))).

(** 358-362 [Dictionary.get] *)
Fixpoint dictionary_get (id : Z) (entries : list (Z * list Z)) : option (list Z) :=
  match entries with [] => None | (i, n) :: r => if id =? i then Some n else dictionary_get id r end.

(** ** Dictionaries with integer keys, in insertion order *)
Fixpoint zdict_set {V} (k : Z) (v : V) (d : list (Z * V)) : list (Z * V) :=
  match d with
  | [] => [(k, v)]
  | (k', v') :: r => if k =? k' then (k', v) :: r else (k', v') :: zdict_set k v r
  end.
Definition zdict_pop {V} (k : Z) (d : list (Z * V)) : option V * list (Z * V) :=
  (zdict_get k d, filter (fun e => negb (fst e =? k)) d).

(** 104-226: the identifiers *)
Definition PID_DICTIONARY : Z := 0x00000000.
Definition PID_CODEPAGE : Z := 0x00000001.
Definition PIDSI_TITLE : Z := 0x02.
Definition PIDSI_SUBJECT : Z := 0x03.
Definition PIDSI_AUTHOR : Z := 0x04.
Definition PIDSI_KEYWORDS : Z := 0x05.
Definition PIDSI_COMMENTS : Z := 0x06.
Definition PIDSI_LASTAUTHOR : Z := 0x08.
Definition PIDSI_REVNUMBER : Z := 0x09.
Definition PIDSI_LASTPRINTED : Z := 0x0b.
Definition PIDSI_CREATE_DTM : Z := 0x0c.
Definition PIDSI_LASTSAVE_DTM : Z := 0x0d.
Definition PIDSI_PAGECOUNT : Z := 0x0e.
(** summaryinfo.py 35-43 *)
Definition HWPPIDSI_DATE_STR : Z := 0x14.
Definition HWPPIDSI_PARACOUNT : Z := 0x15.
(** msoleprops.py 196-227 and summaryinfo.py 45-48 [HWP_PROPERTIES] *)
Definition HWP_PROPERTIES : list (Z * list Z) :=
  [(PID_DICTIONARY, zs "PID_DICTIONARY"); (PID_CODEPAGE, zs "PID_CODEPAGE"); (0x80000000, zs "PID_LOCALE"); (0x80000003, zs "PID_BEHAVIOR");
   (PIDSI_TITLE, zs "PIDSI_TITLE"); (PIDSI_SUBJECT, zs "PIDSI_SUBJECT"); (PIDSI_AUTHOR, zs "PIDSI_AUTHOR");
   (PIDSI_KEYWORDS, zs "PIDSI_KEYWORDS"); (PIDSI_COMMENTS, zs "PIDSI_COMMENTS"); (0x07, zs "PIDSI_TEMPLATE");
   (PIDSI_LASTAUTHOR, zs "PIDSI_LASTAUTHOR"); (PIDSI_REVNUMBER, zs "PIDSI_REVNUMBER"); (0x0a, zs "PIDSI_EDITTIME");
   (PIDSI_LASTPRINTED, zs "PIDSI_LASTPRINTED"); (PIDSI_CREATE_DTM, zs "PIDSI_CREATE_DTM"); (PIDSI_LASTSAVE_DTM, zs "PIDSI_LASTSAVE_DTM");
   (PIDSI_PAGECOUNT, zs "PIDSI_PAGECOUNT"); (0x0f, zs "PIDSI_WORDCOUNT"); (0x10, zs "PIDSI_CHARCOUNT"); (0x11, zs "PIDSI_THUMBNAIL");
   (0x12, zs "PIDSI_APPNAME"); (0x13, zs "PIDSI_SECURITY");
   (HWPPIDSI_DATE_STR, zs "HWPPIDSI_DATE_STR"); (HWPPIDSI_PARACOUNT, zs "HWPPIDSI_PARACOUNT")].

(** ** Reading a stream *)
Fixpoint fmap {X Y} (f : X -> fres Y) (l : list X) : fres (list Y) :=
  match l with
  | [] => fret []
  | x :: r => fbind (f x) (fun y => fbind (fmap f r) (fun ys => fret (y :: ys)))
  end.

(** 391-409 [PropertySet] *)
Record property_set := mkPropertySet {
  ps_fmtid : list Z; ps_offset : Z; ps_bytesize : Z; ps_descs : list (Z * Z); ps_properties : list property }.
(** 490-513 [PropertySetStream] *)
Record property_set_stream := mkPropertySetStream { pss_header : stream_header; pss_sets : list property_set }.

(** 516-527 [PropertySetFormat]: format id and identifiers *)
Definition property_set_format : Type := (list Z * list (Z * list Z))%type.
(** 522-527 [idLabels]; the last format of an id counts (532-536). *)
Definition id_labels (formats : list property_set_format) (fmtid : list Z) : list (Z * list Z) :=
  match find (fun f => if list_eq_dec Z.eq_dec (fst f) fmtid then true else false) (rev formats) with
  | Some f => fold_left (fun d e => zdict_set (fst e) (snd e) d) (snd f) []
  | None => []
  end.

(** 542-613: one turn of the loop over the property sets.  A value of the map is
    a whole PropertyDesc, so its id equals the key. *)
Definition read_property_set (fuel : nat) (formats : list property_set_format) (b : list Z) (desc : list Z * Z) : fres property_set :=
  let off := snd desc in
  fbind (fst (rtype fuel property_set_header_type (seek b off))) (fun v =>
  fbind (flift (property_set_header v)) (fun header =>
  let labels := id_labels formats (fst desc) in
  let descmap := fold_left (fun d e => zdict_set (fst e) e d) (snd header) [] in
  let '(codepage_desc, descmap) := zdict_pop PID_CODEPAGE descmap in
  fbind (match codepage_desc with
         | Some d => fbind (read_property fuel b off d (zdict_get (fst d) labels)) (fun p => fret [p])
         | None => fret []
         end) (fun codepage =>
  let '(dictionary_desc, descmap) := zdict_pop PID_DICTIONARY descmap in
  fbind (match dictionary_desc with
         | Some d => fbind (read_dictionary fuel b off d (zdict_get (fst d) labels)) (fun p => fret [p])
         | None => fret []
         end) (fun dictionary =>
  fbind (fmap (fun d =>
           match dictionary with
           | [] => fraise AttributeError    (* None has no attribute get *)
           | _ => read_property fuel b off d (zdict_get (fst d) labels)
           end) (map snd descmap)) (fun others =>
  fret (mkPropertySet (fst desc) off (fst header) (snd header) (codepage ++ dictionary ++ others))))))).

(** 538-618 [PropertySetStreamReader.read] *)
Definition read_property_set_stream (fuel : nat) (formats : list property_set_format) (b : list Z) : fres property_set_stream :=
  fbind (fst (rtype fuel property_set_stream_header_type (open_bytes b))) (fun v =>
  fbind (flift (property_set_stream_header v)) (fun header =>
  fbind (fmap (read_property_set fuel formats b) (psh_descs header)) (fun sets =>
  fret (mkPropertySetStream header sets)))).

(** 405-409 [PropertySet.__getitem__] *)
Definition getitem (props : list property) (id : Z) : res pvalue :=
  match find (fun p => p_id p =? id) props with
  | Some p => Ok (p_value p)
  | None => Raise KeyError
  end.

(** ** Text *)
Section Text.
  (** 93-101 [FILETIME.__str__]: the datetime arithmetic and its text are not
      modelled (OverflowError for dates after 9999). *)
  Variable time_text : Z -> res (list Z).

  (** '{}'.format(value); the text of a Dictionary object (never printed by the
      formatter of property sets) is not modelled. *)
  Definition value_text (v : pvalue) : res (list Z) :=
    match v with
    | PVInt n => Ok (fmt_d n)
    | PVText t => Ok t
    | PVTime n => time_text n
    | PVDict _ => Raise (OtherError 7)
    end.

  (** [sorted] with a key, stable. *)
  Fixpoint insert_property (p : property) (l : list property) : list property :=
    match l with
    | [] => [p]
    | q :: r => if p_offset p <? p_offset q then p :: l else q :: insert_property p r
    end.
  Definition sorted_properties (l : list property) : list property := fold_left (fun acc p => insert_property p acc) l [].

  Definition opt_text (t : option (list Z)) : list Z := match t with Some x => x | None => [] end.

  (** 643-666: the lines of one property *)
  Definition property_lines (off : Z) (p : property) : gen (list Z) :=
    let head := zs "- " ++ fmt_x 8 (off + p_offset p) ++ zs ": " ++ opt_text (p_label p) ++ zs "(=0x" ++ fmt_x 8 (p_id p) ++ zs ")" in
    if Z.eqb (p_id p) PID_DICTIONARY then
      match p_value p with
      | PVDict entries =>
          ((head ++ zs ":") :: map (fun e => zs "            - " ++ fmt_d (fst e) ++ zs ": " ++ snd e) entries, Finished)
      | _ => ([head ++ zs ":"], Failed AttributeError)
      end
    else
      match value_text (p_value p) with
      | Ok t => ([head ++ zs ": " ++ t], Finished)
      | Raise e => ([], Failed e)
      end.

  (** One generator after another, stopping at the first failure. *)
  Fixpoint gconcat {A} (gs : list (gen A)) : gen A :=
    match gs with
    | [] => ([], Finished)
    | (l, Finished) :: r => gapp l (gconcat r)
    | (l, o) :: _ => (l, o)
    end.

  (** 630-642: the lines of one property set *)
  Definition property_set_lines (s : property_set) : gen (list Z) :=
    let title := zs "Property Set " ++ uuid_str (ps_fmtid s) in
    gapp [zs "- " ++ fmt_x 8 (ps_offset s) ++ zs ": " ++ title; zs "            " ++ repeat_z 45 (zlen title)]
      (gconcat (map (property_lines (ps_offset s)) (sorted_properties (ps_properties s)))).

  (** 621-666 [PropertySetStreamTextFormatter.formatTextLines] *)
  Definition stream_lines (s : property_set_stream) : gen (list Z) :=
    let h := pss_header s in
    gapp [zs "- ByteOrder: 0x" ++ fmt_x 0 (psh_byteOrder h); zs "- Version: " ++ fmt_d (psh_version h);
           zs "- SystemIdentifier: 0x" ++ fmt_x 8 (psh_systemIdentifier h); zs "- CLSID: " ++ uuid_str (psh_clsid h); []]
      (gconcat (map property_set_lines (pss_sets s))).

  (** filestructure.py 511-525 [open_text]: an exception of the formatter
      leaves no text. *)
  Definition lines_text (g : gen (list Z)) : res (list Z) :=
    match g with
    | (lines, Finished) => let? ls := map_res utf8_encode lines in Ok (concat (map (fun l => l ++ [10]) ls))
    | (_, Failed e) => Raise e
    | (_, OutOfFuel) => Raise AssertionError
    end.

  (** ** The summary information (filestructure.py 416-509, summaryinfo.py) *)
  (** summaryinfo.py 29-33; the bytes of 9fa2b660-1061-11d4-b4c6-006097c09d8c *)
  Definition CLSID_HWP_SUMMARY_INFORMATION : list Z :=
    [0x9f; 0xa2; 0xb6; 0x60; 0x10; 0x61; 0x11; 0xd4; 0xb4; 0xc6; 0x00; 0x60; 0x97; 0xc0; 0x9d; 0x8c].

  (** filestructure.py 421-437 [getPropertySetStream] *)
  Definition summary_stream (fuel : nat) (b : list Z) : fres property_set_stream :=
    read_property_set_stream fuel [(CLSID_HWP_SUMMARY_INFORMATION, HWP_PROPERTIES)] b.

  (** 441-446 [getHwpSummaryInfoPropertySet] and the indexing of its result by
      the accessors 448-509; indexing None is a TypeError. *)
  Definition summary_item (s : property_set_stream) (id : Z) : res pvalue :=
    if list_eq_dec Z.eq_dec (psh_clsid (pss_header s)) CLSID_HWP_SUMMARY_INFORMATION then
      match pss_sets s with
      | [] => Raise IndexError
      | p :: _ => getitem (ps_properties p) id
      end
    else Raise TypeError.

  (** summaryinfo.py 52-70 [HwpSummaryInfoTextFormatter.formatTextLines] with the
      accessors 448-509 of filestructure.py *)
  Definition summary_fields : list (list Z * Z) :=
    [(zs "Title", PIDSI_TITLE); (zs "Subject", PIDSI_SUBJECT); (zs "Author", PIDSI_AUTHOR);
     (zs "Keywords", PIDSI_KEYWORDS); (zs "Comments", PIDSI_COMMENTS); (zs "Last saved by", PIDSI_LASTAUTHOR);
     (zs "Revision Number", PIDSI_REVNUMBER); (zs "Last Printed at", PIDSI_LASTPRINTED); (zs "Created at", PIDSI_CREATE_DTM);
     (zs "Last saved at", PIDSI_LASTSAVE_DTM); (zs "Number of pages", PIDSI_PAGECOUNT); (zs "Date", HWPPIDSI_DATE_STR);
     (zs "Number of paragraphs", HWPPIDSI_PARACOUNT)].
  Definition summary_line (s : property_set_stream) (f : list Z * Z) : gen (list Z) :=
    match (let? v := summary_item s (snd f) in value_text v) with
    | Ok t => ([fst f ++ zs ": " ++ t], Finished)
    | Raise e => ([], Failed e)
    end.
  Definition summary_lines (s : property_set_stream) : gen (list Z) := gconcat (map (summary_line s) summary_fields).
End Text.
