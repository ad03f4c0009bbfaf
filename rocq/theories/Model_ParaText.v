(** Model of src/hwp5/binmodel/controlchar.py (ControlChar, CHID.decode) and
    src/hwp5/binmodel/tagid51_para_text.py. *)
From Coq Require Import ZArith String List Bool.
From Verif Require Import Base Model_Text Model_Dataio.
Import ListNotations.
Open Scope Z_scope.

(** controlchar.py 123-130: the kinds and their sizes in code units. *)
Inductive ctl_kind : Type := KChar | KInline | KExtended.

Definition kind_size (k : ctl_kind) : Z :=
  match k with KChar => 1 | KInline => 8 | KExtended => 8 end.

(** controlchar.py 131-157 [ControlChar.chars]. *)
Definition control_chars : list (Z * (string * ctl_kind)) :=
  [ (0x00, ("NULL", KChar));
    (0x01, ("CTLCHR01", KExtended));
    (0x02, ("SECTION_COLUMN_DEF", KExtended));
    (0x03, ("FIELD_START", KExtended));
    (0x04, ("FIELD_END", KInline));
    (0x05, ("CTLCHR05", KInline));
    (0x06, ("CTLCHR06", KInline));
    (0x07, ("CTLCHR07", KInline));
    (0x08, ("TITLE_MARK", KInline));
    (0x09, ("TAB", KInline));
    (0x0a, ("LINE_BREAK", KChar));
    (0x0b, ("DRAWING_TABLE_OBJECT", KExtended));
    (0x0c, ("CTLCHR0C", KExtended));
    (0x0d, ("PARAGRAPH_BREAK", KChar));
    (0x0e, ("CTLCHR0E", KExtended));
    (0x0f, ("HIDDEN_EXPLANATION", KExtended));
    (0x10, ("HEADER_FOOTER", KExtended));
    (0x11, ("FOOT_END_NOTE", KExtended));
    (0x12, ("AUTO_NUMBER", KExtended));
    (0x13, ("CTLCHR13", KInline));
    (0x14, ("CTLCHR14", KInline));
    (0x15, ("PAGE_CTLCHR", KExtended));
    (0x16, ("BOOKMARK", KExtended));
    (0x17, ("CTLCHR17", KExtended));
    (0x18, ("HYPHEN", KChar));
    (0x1e, ("NONBREAK_SPACE", KChar));
    (0x1f, ("FIXWIDTH_SPACE", KChar)) ]%string.

(** controlchar.py 158-159 [names], [kinds]; a missing key of [kinds] is a
    KeyError. *)
Definition control_kind (code : Z) : res ctl_kind :=
  match zdict_get code control_chars with
  | Some (_, k) => Ok k
  | None => Raise KeyError
  end.

(** controlchar.py 209-212 [get_name_by_code]. *)
Definition get_name_by_code (code : Z) : list Z :=
  match zdict_get code control_chars with
  | Some (n, _) => zs n
  | None => zs "CTLCHR" ++ fmt_x 2 code
  end.

(** The regular expression of controlchar.py 165, searched from the start of
    [l], which is at index [i]: the index of the first match. *)
Fixpoint regex_search (l : list Z) (i : Z) : option Z :=
  match l with
  | [] => None
  | lo :: t =>
      match t with
      | hi :: _ => if (0 <=? lo) && (lo <=? 0x1f) && (hi =? 0) then Some i else regex_search t (i + 1)
      | [] => None
      end
  end.

(** controlchar.py 167-183 [ControlChar.find]; [None] is out of fuel. *)
Fixpoint find_loop (fuel : nat) (data : list Z) (start_idx : Z) : option (res (Z * Z)) :=
  match fuel with
  | O => None
  | S k =>
      match regex_search (zdrop start_idx data) start_idx with
      | Some i =>
          if Z.land i 1 =? 1 then find_loop k data (i + 1)
          else match znth i data with
               | None => Some (Raise IndexError)
               | Some char =>
                   Some (let? kind := control_kind char in
                         Ok (i, i + kind_size kind * 2))
               end
      | None => Some (Ok (zlen data, zlen data))
      end
  end.

Definition control_find (data : list Z) (start_idx : Z) : option (res (Z * Z)) :=
  find_loop (S (List.length data)) data start_idx.

(** Chunks: text, or the dict built by ControlChar.decode.  The chid is a
    4-character string. *)
Inductive control : Type :=
| CtlChar (code : Z)
| CtlTab (code width unknown0 unknown1 : Z) (unknown2 : list Z)
| CtlObj (code : Z) (chid : list Z) (param : list Z).

Inductive chunk : Type :=
| ChText (t : list Z)
| ChCtl (c : control).

(** controlchar.py 109-119 [CHID.decode]: indexing past the end is an
    IndexError; bytes after the fourth are ignored. *)
Definition chid_decode (b : list Z) : res (list Z) :=
  match b with
  | b0 :: b1 :: b2 :: b3 :: _ => Ok [b3; b2; b1; b0]
  | _ => Raise IndexError
  end.

(** controlchar.py 185-202 [ControlChar.decode]. *)
Definition control_decode (b : list Z) : res control :=
  let? code := struct_unpack UINT16 (zslice 0 2 b) in
  let? kind := control_kind code in
  if kind_size kind =? 8 then
    let b := zslice 2 (2 + 12) b in
    if code =? 0x09 then
      let? width := struct_unpack UINT32 (zslice 0 4 b) in
      let? unknown0 := struct_unpack UINT8 (zslice 4 5 b) in
      let? unknown1 := struct_unpack UINT8 (zslice 5 6 b) in
      Ok (CtlTab code width unknown0 unknown1 (zdrop 6 b))
    else
      let? chid := chid_decode (zslice 0 4 b) in
      Ok (CtlObj code chid (zslice 4 12 b))
  else Ok (CtlChar code).

(** tagid51_para_text.py 39-52 [ParaTextChunks.parse_chunks]. *)
Fixpoint parse_chunks_loop (fuel : nat) (data : list Z) (idx : Z) : gen ((Z * Z) * chunk) :=
  match fuel with
  | O => ([], OutOfFuel)
  | S k =>
      if idx <? zlen data then
        match control_find data idx with
        | None => ([], OutOfFuel)
        | Some (Raise e) => ([], Failed e)
        | Some (Ok (ctrlpos, ctrlpos_end)) =>
            let after_text :=
              if ctrlpos <? ctrlpos_end then
                match control_decode (zslice ctrlpos ctrlpos_end data) with
                | Raise e => ([], Failed e)
                | Ok cch => gcons ((ctrlpos / 2, ctrlpos_end / 2), ChCtl cch)
                                  (parse_chunks_loop k data ctrlpos_end)
                end
              else parse_chunks_loop k data ctrlpos_end in
            if idx <? ctrlpos then
              match utf16le_decode (zslice idx ctrlpos data) with
              | Raise e => ([], Failed e)
              | Ok text => gcons ((idx / 2, ctrlpos / 2), ChText text) after_text
              end
            else after_text
        end
      else ([], Finished)
  end.

Definition parse_chunks (data : list Z) : gen ((Z * Z) * chunk) :=
  parse_chunks_loop (S (List.length data)) data 0.

(** tagid51_para_text.py 34-37 [ParaTextChunks.read]: the list, or the first
    exception. *)
Definition para_text_read (s : stream) : option (res (list ((Z * Z) * chunk))) * stream :=
  let (b, s') := stream_read_all s in
  (match parse_chunks b with
   | (out, Finished) => Some (Ok out)
   | (_, Failed e) => Some (Raise e)
   | (_, OutOfFuel) => None
   end, s').
