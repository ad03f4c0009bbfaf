(** Specification of the paragraph text format. *)
From Coq Require Import ZArith String List Bool.
From Verif Require Import Base Model_Text Model_Dataio Model_ParaText Spec_Text Spec_Dataio.
Import ListNotations.
Open Scope Z_scope.

(** A control code unit is below 0x20.  They come in three groups. *)
Definition one_unit_control (c : Z) : Prop := In c [0x00; 0x0a; 0x0d; 0x18; 0x1e; 0x1f].
Definition undefined_control (c : Z) : Prop := 0x19 <= c <= 0x1d.
Definition eight_unit_control (c : Z) : Prop :=
  0 <= c < 0x20 /\ ~ one_unit_control c /\ ~ undefined_control c.

(** [b], read as 16-bit units, contains no control unit (an odd last byte is
    not a unit). *)
Fixpoint control_free (b : list Z) : Prop :=
  match b with
  | lo :: hi :: t => ~ (lo < 0x20 /\ hi = 0) /\ control_free t
  | _ => True
  end.

(** The text run ends here: nothing follows, or a control unit follows. *)
Definition run_ends (before rest : list Z) : Prop :=
  rest = [] \/ (exists lo t, rest = lo :: 0 :: t /\ lo < 0x20) /\ Z.even (zlen before) = true.

Definition units (b : list Z) : Z := zlen b / 2.

Definition starts_undefined (rest : list Z) : Prop :=
  exists c t, rest = c :: 0 :: t /\ undefined_control c.

(** The chunks of a paragraph text [data] that starts at unit position [p],
    and how reading it ends. *)
Inductive para_text : Z -> list Z -> list ((Z * Z) * chunk) -> outcome -> Prop :=
| para_end : forall p, para_text p [] [] Finished
(* text: a maximal run without control units, valid UTF-16 *)
| para_run : forall p t rest out o, t <> [] -> Forall scalar t -> control_free (utf16le_bytes t) ->
    run_ends (utf16le_bytes t) rest -> ~ starts_undefined rest ->
    para_text_at_control (p + zlen (utf16_units t)) rest out o ->
    para_text p (utf16le_bytes t ++ rest) (((p, p + zlen (utf16_units t)), ChText t) :: out) o
| para_bad_run : forall p b rest, b <> [] -> control_free b -> run_ends b rest ->
    (forall t, Forall scalar t -> b <> utf16le_bytes t) ->
    ~ starts_undefined rest ->
    para_text p (b ++ rest) [] (Failed UnicodeDecodeError)
(* the code is looked up before the text in front of it is decoded *)
| para_undefined_after_run : forall p b rest, b <> [] -> control_free b -> run_ends b rest ->
    starts_undefined rest ->
    para_text p (b ++ rest) [] (Failed KeyError)
| para_control : forall p c t out o, c < 0x20 ->
    para_text_at_control p (c :: 0 :: t) out o -> para_text p (c :: 0 :: t) out o
(* at a control unit, or at the end *)
with para_text_at_control : Z -> list Z -> list ((Z * Z) * chunk) -> outcome -> Prop :=
| atc_end : forall p, para_text_at_control p [] [] Finished
| atc_char : forall p c rest out o, one_unit_control c ->
    para_text (p + 1) rest out o ->
    para_text_at_control p (c :: 0 :: rest) (((p, p + 1), ChCtl (CtlChar c)) :: out) o
| atc_undefined : forall p c rest, undefined_control c ->
    para_text_at_control p (c :: 0 :: rest) [] (Failed KeyError)
(* 8 units: code, 12 bytes, 2 bytes that are ignored *)
| atc_tab : forall p width u0 u1 u2 trail rest out o,
    0 <= width < 4294967296 -> is_byte u0 -> is_byte u1 -> zlen u2 = 6 -> zlen trail = 2 ->
    para_text (p + 8) rest out o ->
    para_text_at_control p (0x09 :: 0 :: number_bytes 4 width ++ u0 :: u1 :: u2 ++ trail ++ rest)
      (((p, p + 8), ChCtl (CtlTab 0x09 width u0 u1 u2)) :: out) o
| atc_obj : forall p c i0 i1 i2 i3 param trail rest out o,
    eight_unit_control c -> c <> 0x09 -> zlen param = 8 -> zlen trail = 2 ->
    para_text (p + 8) rest out o ->
    para_text_at_control p (c :: 0 :: i0 :: i1 :: i2 :: i3 :: param ++ trail ++ rest)
      (((p, p + 8), ChCtl (CtlObj c [i3; i2; i1; i0] param)) :: out) o
(* cut by the end of the text, but with what is needed: accepted *)
| atc_tab_cut : forall p width u0 u1 tail,
    0 <= width < 4294967296 -> is_byte u0 -> is_byte u1 -> zlen tail < 8 ->
    para_text_at_control p (0x09 :: 0 :: number_bytes 4 width ++ u0 :: u1 :: tail)
      [((p, p + 8), ChCtl (CtlTab 0x09 width u0 u1 (ztake 6 tail)))] Finished
| atc_obj_cut : forall p c i0 i1 i2 i3 tail,
    eight_unit_control c -> c <> 0x09 -> zlen tail < 10 ->
    para_text_at_control p (c :: 0 :: i0 :: i1 :: i2 :: i3 :: tail)
      [((p, p + 8), ChCtl (CtlObj c [i3; i2; i1; i0] (ztake 8 tail)))] Finished
(* cut too early *)
| atc_tab_short : forall p tail, zlen tail < 6 ->
    para_text_at_control p (0x09 :: 0 :: tail) [] (Failed StructError)
| atc_obj_short : forall p c tail, eight_unit_control c -> c <> 0x09 -> zlen tail < 4 ->
    para_text_at_control p (c :: 0 :: tail) [] (Failed IndexError).

(** Ranges follow each other without gap or overlap, from [p] to [q]. *)
Inductive tiled : Z -> list (Z * Z) -> Z -> Prop :=
| tiled_nil : forall p, tiled p [] p
| tiled_cons : forall p m q rs, p < m -> tiled m rs q -> tiled p ((p, m) :: rs) q.

(** The i-th code unit of a byte string. *)
Definition unit_at (b : list Z) (i : Z) : option Z :=
  match znth (2 * i) b, znth (2 * i + 1) b with
  | Some lo, Some hi => Some (lo + 256 * hi)
  | _, _ => None
  end.

(** What a chunk with range (s, e) says about the code units of the text. *)
Definition chunk_describes (data : list Z) (s e : Z) (c : chunk) : Prop :=
  match c with
  | ChText t =>
      t <> [] /\ Forall scalar t /\ zlen (utf16_units t) = e - s /\
      zslice (2 * s) (2 * e) data = utf16le_bytes t /\
      (forall i, s <= i < e -> exists u, unit_at data i = Some u /\ 0x20 <= u)
  | ChCtl (CtlChar c) => e = s + 1 /\ one_unit_control c /\ unit_at data s = Some c
  | ChCtl (CtlTab c width u0 u1 u2) =>
      e = s + 8 /\ c = 0x09 /\ unit_at data s = Some c /\
      zslice (2 * s + 2) (2 * s + 14) data = number_bytes 4 width ++ [u0; u1] ++ u2
  | ChCtl (CtlObj c chid param) =>
      e = s + 8 /\ eight_unit_control c /\ c <> 0x09 /\ unit_at data s = Some c /\
      zslice (2 * s + 2) (2 * s + 14) data = rev chid ++ param
  end.

(** Two text chunks never follow each other. *)
Definition is_text (x : (Z * Z) * chunk) : Prop := match snd x with ChText _ => True | _ => False end.
Fixpoint no_adjacent_texts (out : list ((Z * Z) * chunk)) : Prop :=
  match out with
  | x :: (y :: _) as rest => ~ (is_text x /\ is_text y) /\ no_adjacent_texts rest
  | _ => True
  end.


(** Why a run stops: what the unread rest looks like. *)
Inductive stops_because : list Z -> exn -> Prop :=
| stop_undefined : forall b c t, control_free b -> Z.even (zlen b) = true -> undefined_control c ->
    stops_because (b ++ c :: 0 :: t) KeyError
| stop_text : forall b rest, b <> [] -> control_free b -> run_ends b rest ->
    (forall t, Forall scalar t -> b <> utf16le_bytes t) -> stops_because (b ++ rest) UnicodeDecodeError
| stop_tab : forall t, zlen t < 6 -> stops_because (9 :: 0 :: t) StructError
| stop_obj : forall c t, eight_unit_control c -> c <> 9 -> zlen t < 4 -> stops_because (c :: 0 :: t) IndexError.


(** Paragraph content as a writer produces it.  The last two bytes of an
    8-unit control repeat its code in real documents; any two are allowed. *)
Inductive pchunk : Type :=
| PText (t : list Z)
| PChar (code : Z)
| PTab (width u0 u1 : Z) (u2 trail : list Z)
| PObj (code : Z) (chid param trail : list Z).

Definition pchunk_ok (c : pchunk) : Prop :=
  match c with
  | PText t => t <> [] /\ Forall scalar t /\ Forall (fun c => 0x20 <= c) t
  | PChar c => one_unit_control c
  | PTab w u0 u1 u2 trail => 0 <= w < 4294967296 /\ is_byte u0 /\ is_byte u1 /\ zlen u2 = 6 /\ zlen trail = 2
  | PObj c chid param trail => eight_unit_control c /\ c <> 9 /\ zlen chid = 4 /\ zlen param = 8 /\ zlen trail = 2
  end.

Definition pchunk_bytes (c : pchunk) : list Z :=
  match c with
  | PText t => utf16le_bytes t
  | PChar c => [c; 0]
  | PTab w u0 u1 u2 trail => 9 :: 0 :: number_bytes 4 w ++ u0 :: u1 :: u2 ++ trail
  | PObj c chid param trail => c :: 0 :: rev chid ++ param ++ trail
  end.

Definition pchunk_units (c : pchunk) : Z :=
  match c with
  | PText t => zlen (utf16_units t)
  | PChar _ => 1
  | PTab _ _ _ _ _ | PObj _ _ _ _ => 8
  end.

Definition pchunk_value (c : pchunk) : chunk :=
  match c with
  | PText t => ChText t
  | PChar c => ChCtl (CtlChar c)
  | PTab w u0 u1 u2 _ => ChCtl (CtlTab 9 w u0 u1 u2)
  | PObj c chid param _ => ChCtl (CtlObj c chid param)
  end.

Fixpoint place (p : Z) (cs : list pchunk) : list ((Z * Z) * chunk) :=
  match cs with
  | [] => []
  | c :: rest => ((p, p + pchunk_units c), pchunk_value c) :: place (p + pchunk_units c) rest
  end.

Fixpoint no_adjacent_ptexts (cs : list pchunk) : Prop :=
  match cs with
  | c :: (d :: _) as rest =>
      ~ (match c, d with PText _, PText _ => True | _, _ => False end) /\ no_adjacent_ptexts rest
  | _ => True
  end.

(** The control characters: which stand alone, which carry their own data
    inline, and which stand for a control record; and their names by code. *)
Definition control_group (c : Z) : option ctl_kind :=
  if existsb (Z.eqb c) [0; 10; 13; 24; 30; 31] then Some KChar
  else if existsb (Z.eqb c) [4; 5; 6; 7; 8; 9; 19; 20] then Some KInline
  else if existsb (Z.eqb c) [1; 2; 3; 11; 12; 14; 15; 16; 17; 18; 21; 22; 23] then Some KExtended
  else None.
Definition control_name (c : Z) : string :=
  nth (Z.to_nat c)
    [ "NULL"; "CTLCHR01"; "SECTION_COLUMN_DEF"; "FIELD_START"; "FIELD_END"; "CTLCHR05"; "CTLCHR06"; "CTLCHR07";
      "TITLE_MARK"; "TAB"; "LINE_BREAK"; "DRAWING_TABLE_OBJECT"; "CTLCHR0C"; "PARAGRAPH_BREAK"; "CTLCHR0E"; "HIDDEN_EXPLANATION";
      "HEADER_FOOTER"; "FOOT_END_NOTE"; "AUTO_NUMBER"; "CTLCHR13"; "CTLCHR14"; "PAGE_CTLCHR"; "BOOKMARK"; "CTLCHR17";
      "HYPHEN"; "CTLCHR19"; "CTLCHR1a"; "CTLCHR1b"; "CTLCHR1c"; "CTLCHR1d"; "NONBREAK_SPACE"; "FIXWIDTH_SPACE" ]%string ""%string.
