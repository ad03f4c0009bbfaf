(** Model of src/hwp5/recordstream.py and src/hwp5/tagids.py. *)
From Coq Require Import ZArith String List Bool.
From Verif Require Import Base Model_Text Model_Dataio.
Import ListNotations.
Open Scope Z_scope.

(** tagids.py 24-78 *)
Definition HWPTAG_BEGIN : Z := 0x010.

Definition tagnames : list (Z * string) := [
  (HWPTAG_BEGIN + 0, "HWPTAG_DOCUMENT_PROPERTIES"%string);
  (HWPTAG_BEGIN + 1, "HWPTAG_ID_MAPPINGS"%string);
  (HWPTAG_BEGIN + 2, "HWPTAG_BIN_DATA"%string);
  (HWPTAG_BEGIN + 3, "HWPTAG_FACE_NAME"%string);
  (HWPTAG_BEGIN + 4, "HWPTAG_BORDER_FILL"%string);
  (HWPTAG_BEGIN + 5, "HWPTAG_CHAR_SHAPE"%string);
  (HWPTAG_BEGIN + 6, "HWPTAG_TAB_DEF"%string);
  (HWPTAG_BEGIN + 7, "HWPTAG_NUMBERING"%string);
  (HWPTAG_BEGIN + 8, "HWPTAG_BULLET"%string);
  (HWPTAG_BEGIN + 9, "HWPTAG_PARA_SHAPE"%string);
  (HWPTAG_BEGIN + 10, "HWPTAG_STYLE"%string);
  (HWPTAG_BEGIN + 11, "HWPTAG_DOC_DATA"%string);
  (HWPTAG_BEGIN + 12, "HWPTAG_DISTRIBUTE_DOC_DATA"%string);
  (HWPTAG_BEGIN + 14, "HWPTAG_COMPATIBLE_DOCUMENT"%string);
  (HWPTAG_BEGIN + 15, "HWPTAG_LAYOUT_COMPATIBILITY"%string);
  (HWPTAG_BEGIN + 16, "HWPTAG_BEGIN_PLUS_16"%string);
  (HWPTAG_BEGIN + 50, "HWPTAG_PARA_HEADER"%string);
  (HWPTAG_BEGIN + 51, "HWPTAG_PARA_TEXT"%string);
  (HWPTAG_BEGIN + 52, "HWPTAG_PARA_CHAR_SHAPE"%string);
  (HWPTAG_BEGIN + 53, "HWPTAG_PARA_LINE_SEG"%string);
  (HWPTAG_BEGIN + 54, "HWPTAG_PARA_RANGE_TAG"%string);
  (HWPTAG_BEGIN + 55, "HWPTAG_CTRL_HEADER"%string);
  (HWPTAG_BEGIN + 56, "HWPTAG_LIST_HEADER"%string);
  (HWPTAG_BEGIN + 57, "HWPTAG_PAGE_DEF"%string);
  (HWPTAG_BEGIN + 58, "HWPTAG_FOOTNOTE_SHAPE"%string);
  (HWPTAG_BEGIN + 59, "HWPTAG_PAGE_BORDER_FILL"%string);
  (HWPTAG_BEGIN + 60, "HWPTAG_SHAPE_COMPONENT"%string);
  (HWPTAG_BEGIN + 61, "HWPTAG_TABLE"%string);
  (HWPTAG_BEGIN + 62, "HWPTAG_SHAPE_COMPONENT_LINE"%string);
  (HWPTAG_BEGIN + 63, "HWPTAG_SHAPE_COMPONENT_RECTANGLE"%string);
  (HWPTAG_BEGIN + 64, "HWPTAG_SHAPE_COMPONENT_ELLIPSE"%string);
  (HWPTAG_BEGIN + 65, "HWPTAG_SHAPE_COMPONENT_ARC"%string);
  (HWPTAG_BEGIN + 66, "HWPTAG_SHAPE_COMPONENT_POLYGON"%string);
  (HWPTAG_BEGIN + 67, "HWPTAG_SHAPE_COMPONENT_CURVE"%string);
  (HWPTAG_BEGIN + 68, "HWPTAG_SHAPE_COMPONENT_OLE"%string);
  (HWPTAG_BEGIN + 69, "HWPTAG_SHAPE_COMPONENT_PICTURE"%string);
  (HWPTAG_BEGIN + 70, "HWPTAG_SHAPE_COMPONENT_CONTAINER"%string);
  (HWPTAG_BEGIN + 71, "HWPTAG_CTRL_DATA"%string);
  (HWPTAG_BEGIN + 72, "HWPTAG_CTRL_EQEDIT"%string);
  (HWPTAG_BEGIN + 74, "HWPTAG_SHAPE_COMPONENT_TEXTART"%string);
  (HWPTAG_BEGIN + 75, "HWPTAG_FORM_OBJECT"%string);
  (HWPTAG_BEGIN + 76, "HWPTAG_MEMO_SHAPE"%string);
  (HWPTAG_BEGIN + 77, "HWPTAG_MEMO_LIST"%string);
  (HWPTAG_BEGIN + 78, "HWPTAG_FORBIDDEN_CHAR"%string);
  (HWPTAG_BEGIN + 79, "HWPTAG_CHART_DATA"%string);
  (HWPTAG_BEGIN + 99, "HWPTAG_SHAPE_COMPONENT_UNKNOWN"%string)
].

(** recordstream.py 36-37 *)
Definition tagname (tagid : Z) : list Z :=
  match zdict_get tagid tagnames with
  | Some n => zs n
  | None => zs "HWPTAG" ++ fmt_d (tagid - HWPTAG_BEGIN)
  end.

(** recordstream.py 40-47 [Record]: the dict as a record type. *)
Record record : Type := mkRecord {
  r_tagid : Z;
  r_tagname : list Z;
  r_level : Z;
  r_size : Z;
  r_payload : list Z;
  r_seqno : option Z
}.

Definition make_record (tagid level : Z) (payload : list Z) (size : option Z)
           (seqno : option Z) : record :=
  mkRecord tagid (tagname tagid) level
           (match size with Some s => s | None => zlen payload end) payload seqno.

(** recordstream.py 50-61 [decode_record_header]; [None] is Python's None. *)
Definition decode_record_header (s : stream) : res (option (Z * Z * Z)) * stream :=
  match prim_read UINT32 s with
  | (Raise (Eof _), s1) => (Ok None, s1)
  | (Raise e, s1) => (Raise e, s1)
  | (Ok rechdr, s1) =>
      let tagid := Z.land rechdr 0x3ff in
      let level := Z.land (Z.shiftr rechdr 10) 0x3ff in
      let size := Z.land (Z.shiftr rechdr 20) 0xfff in
      if size =? 0xfff then
        match prim_read UINT32 s1 with
        | (Raise (Eof _), s2) => (Ok None, s2)
        | (Raise e, s2) => (Raise e, s2)
        | (Ok size', s2) => (Ok (Some (tagid, level, size')), s2)
        end
      else (Ok (Some (tagid, level, size)), s1)
  end.

(** struct.pack('<I', v): struct.error unless 0 <= v < 2^32 *)
Definition pack_I (v : Z) : res (list Z) :=
  if (0 <=? v) && (v <? 2 ^ 32) then Ok (le_encode 4 v) else Raise StructError.

(** recordstream.py 64-73 [encode_record_header] *)
Definition encode_record_header (tagid level : Z) (payload : list Z) : res (list Z) :=
  let size := zlen payload in
  if size <? 0xfff then
    pack_I (Z.lor (Z.lor (Z.shiftl size 20) (Z.shiftl level 10)) tagid)
  else
    let? h := pack_I (Z.lor (Z.lor (Z.shiftl 0xfff 20) (Z.shiftl level 10)) tagid) in
    let? z := pack_I size in
    Ok (h ++ z).

(** recordstream.py 76-82 [read_record] *)
Definition read_record (s : stream) (seqno : Z) : res (option record) * stream :=
  match decode_record_header s with
  | (Raise e, s1) => (Raise e, s1)
  | (Ok None, s1) => (Ok None, s1)
  | (Ok (Some (tagid, level, size)), s1) =>
      match readn size s1 with
      | (Raise e, s2) => (Raise e, s2)
      | (Ok payload, s2) =>
          (Ok (Some (make_record tagid level payload (Some size) (Some seqno))), s2)
      end
  end.

(** recordstream.py 85-88 [dump_record]: the bytes written to f. *)
Definition dump_record (r : record) : res (list Z) :=
  let? h := encode_record_header (r_tagid r) (r_level r) (r_payload r) in
  Ok (h ++ r_payload r).

Fixpoint dump_records (rs : list record) : res (list Z) :=
  match rs with
  | [] => Ok []
  | r :: t => let? b := dump_record r in let? bs := dump_records t in Ok (b ++ bs)
  end.

(** recordstream.py 91-99 [read_records].  Every turn consumes at least four
    bytes, so the number of remaining bytes plus one is enough fuel. *)
Fixpoint read_records_loop (fuel : nat) (s : stream) (seqno : Z) : gen record :=
  match fuel with
  | O => ([], OutOfFuel)
  | S k =>
      match read_record s seqno with
      | (Raise e, _) => ([], Failed e)
      | (Ok None, _) => ([], Finished)
      | (Ok (Some r), s') => gcons r (read_records_loop k s' (seqno + 1))
      end
  end.

Definition read_records (s : stream) : gen record :=
  read_records_loop (S (List.length (s_rest s))) s 0.

(** recordstream.py 102-112 [link_records].  The links are references to other
    record dicts; they are modelled by the position of the record in the
    sequence.  [prev] carries the previous record's position, level and
    parent.  Simplification: records are represented by their levels; they
    carry no 'parent'/'sister' entry before linking. *)
Record links : Type := mkLinks { l_sister : option nat; l_parent : option nat }.

Fixpoint link_records_from (pos : nat) (prev : option (Z * links)) (levels : list Z)
  : list links :=
  match levels with
  | [] => []
  | lv :: rest =>
      let l :=
        match prev with
        | None => mkLinks None None
        | Some (plv, pl) =>
            if lv =? plv then mkLinks (Some (pred pos)) (l_parent pl)
            else if lv =? plv + 1 then mkLinks None (Some (pred pos))
            else mkLinks None None
        end in
      l :: link_records_from (S pos) (Some (lv, l)) rest
  end.

Definition link_records (levels : list Z) : list links := link_records_from 0 None levels.

(** recordstream.py 121-125 [nth] with default None, for n >= 0, applied to a
    generator: an exception of the generator is only seen when item [n] was
    not reached before it. *)
Definition nth_item {A} (g : gen A) (n : nat) : res (option A) :=
  match nth_error (fst g) n with
  | Some x => Ok (Some x)
  | None =>
      match snd g with
      | Finished => Ok None
      | Failed e => Raise e
      | OutOfFuel => Raise AssertionError
      end
  end.

(** recordstream.py 128-151 [group_records_by_toplevel], group_as_list=True.
    The inner generator [records_in_a_tree] is run to its end by [list]: it
    yields the pending top and everything up to the next level-0 record, which
    becomes the next pending top ([Some]); [None] means the record source
    ended. *)
Fixpoint records_in_a_tree {A} (level : A -> Z) (rs : list A)
  : list A * option (A * list A) :=
  match rs with
  | [] => ([], None)
  | r :: t =>
      if level r =? 0 then ([], Some (r, t))
      else match records_in_a_tree level t with
           | (g, next) => (r :: g, next)
           end
  end.

(** The loop of lines 147-151; [o] is how the record source ends.  When the
    source raises, [list(group)] raises and the group is not yielded. *)
Fixpoint group_loop {A} (fuel : nat) (level : A -> Z) (top : A) (rs : list A) (o : outcome)
  : gen (list A) :=
  match fuel with
  | O => ([], OutOfFuel)
  | S k =>
      match records_in_a_tree level rs with
      | (g, Some (top', rest)) => gcons (top :: g) (group_loop k level top' rest o)
      | (g, None) =>
          match o with
          | Finished => ([top :: g], Finished)
          | _ => ([], o)
          end
      end
  end.

Definition group_by_toplevel {A} (level : A -> Z) (src : gen A) : gen (list A) :=
  match fst src with
  | [] => ([], snd src)
  | r :: t => group_loop (S (List.length t)) level r t (snd src)
  end.

(** itertools.islice(records, a, b), 0 <= a, 0 <= b: pulls max(a,b) items at
    most, so an exception of the source after them is not seen. *)
Definition islice {A} (a b : nat) (src : gen A) : gen A :=
  (firstn (b - a) (skipn a (fst src)),
   if Nat.leb (Nat.max a b) (List.length (fst src)) then Finished else snd src).

(** What a caller of [RecordStream.records] gets by iterating the result.
    recordstream.py 156-164.  A missing tree group gives None, on which
    iterating raises TypeError. *)
Inductive selection : Type := SelAll | SelRange (a b : nat) | SelTree (n : nat).

Definition select_records (sel : selection) (src : gen record) : gen record :=
  match sel with
  | SelAll => src
  | SelRange a b => islice a b src
  | SelTree n =>
      match nth_item (group_by_toplevel r_level src) n with
      | Ok (Some g) => (g, Finished)
      | Ok None => ([], Failed TypeError)
      | Raise e => ([], Failed e)
      end
  end.

(** recordstream.py 166-168 [RecordStream.record] *)
Definition select_record (idx : nat) (src : gen record) : res (option record) :=
  nth_item src idx.

(** recordstream.py 180-183 [RecordStream.records_treegroup] *)
Definition records_treegroup (n : nat) (src : gen record) : res (option (list record)) :=
  nth_item (group_by_toplevel r_level src) n.
