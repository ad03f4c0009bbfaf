(** Specification of the HWP record stream, independent of the model's
    functions: the wire format, the grammar of byte streams, top-level
    grouping and record links. *)
From Coq Require Import ZArith String List Bool.
From Verif Require Import Base Model_Record.
Import ListNotations.
Open Scope Z_scope.

(** The four bytes of a 32-bit little-endian number. *)
Definition le32 (v : Z) : list Z :=
  [v mod 256; (v / 256) mod 256; (v / 65536) mod 256; (v / 16777216) mod 256].

(** A header: tag id in bits 0-9, level in bits 10-19, size in bits 20-31;
    size field 4095 announces a separate 32-bit size. *)
Definition short_header (tag level size : Z) : list Z :=
  le32 (tag + 1024 * level + 1048576 * size).
Definition long_header (tag level size : Z) : list Z :=
  le32 (tag + 1024 * level + 1048576 * 4095) ++ le32 size.

(** The canonical header: short form exactly when the size is below 4095. *)
Definition wire_header (tag level size : Z) : list Z :=
  if size <? 4095 then short_header tag level size else long_header tag level size.

Definition wire (tag level : Z) (payload : list Z) : list Z :=
  wire_header tag level (zlen payload) ++ payload.

Definition tag_ok (t : Z) : Prop := 0 <= t < 1024.

(** [header_says h t l n]: the bytes [h] are a complete header announcing tag
    [t], level [l] and [n] payload bytes (an extended size below 4095 is
    tolerated). *)
Inductive header_says : list Z -> Z -> Z -> Z -> Prop :=
| says_short : forall t l n, tag_ok t -> tag_ok l -> 0 <= n < 4095 ->
    header_says (short_header t l n) t l n
| says_long : forall t l n, tag_ok t -> tag_ok l -> 0 <= n < 4294967296 ->
    header_says (long_header t l n) t l n.

(** A complete first word announcing an extended size that is still to come. *)
Inductive header_word_ext : list Z -> Prop :=
| word_ext : forall t l, tag_ok t -> tag_ok l ->
    header_word_ext (short_header t l 4095).

(** The record reported for a header and the payload bytes found. *)
Definition record_of (seqno t l n : Z) (payload : list Z) : record :=
  mkRecord t (tagname t) l n payload (Some seqno).

(** [record_stream off seqno b rs o]: a stream whose bytes from offset [off] on
    are [b], with [seqno] records before it, is reported as records [rs] and
    ends with [o]. *)
Inductive record_stream : Z -> Z -> list Z -> list record -> outcome -> Prop :=
| rs_end : forall off sq,
    record_stream off sq [] [] Finished
| rs_short_header : forall off sq b,
    1 <= zlen b <= 3 ->
    record_stream off sq b [] (Failed StructError)
| rs_bare_extended : forall off sq h,
    header_word_ext h ->
    record_stream off sq h [] Finished
| rs_short_extended : forall off sq h b,
    header_word_ext h -> 1 <= zlen b <= 3 ->
    record_stream off sq (h ++ b) [] (Failed StructError)
| rs_size_zero : forall off sq h t l b,
    header_says h t l 0 ->
    record_stream off sq (h ++ b) [] (Failed (Eof (off + zlen h)))
| rs_no_payload : forall off sq h t l n,
    header_says h t l n -> 0 < n ->
    record_stream off sq h [] (Failed (Eof (off + zlen h)))
| rs_truncated : forall off sq h t l n p,
    header_says h t l n -> 0 < zlen p < n ->
    record_stream off sq (h ++ p) [record_of sq t l n p] Finished
| rs_record : forall off sq h t l n p b rs o,
    header_says h t l n -> 0 < n -> zlen p = n ->
    record_stream (off + zlen h + n) (sq + 1) b rs o ->
    record_stream off sq (h ++ p ++ b) (record_of sq t l n p :: rs) o.

(** Bytes of a reported record: some header announcing it, and its payload. *)
Definition accounts (r : record) (b : list Z) : Prop :=
  exists h, header_says h (r_tagid r) (r_level r) (r_size r) /\ b = h ++ r_payload r.

(** A record as written: tag id, level, payload. *)
Definition raw_record : Type := (Z * Z * list Z)%type.

Definition raw_ok (r : raw_record) : Prop :=
  match r with (t, l, p) => tag_ok t /\ tag_ok l /\ zlen p < 4294967296 end.
Definition raw_nonempty (r : raw_record) : Prop := snd r <> [].

(** The records that should come back, numbered from [sq]. *)
Fixpoint expected (sq : Z) (rs : list raw_record) : list record :=
  match rs with
  | [] => []
  | (t, l, p) :: rest => record_of sq t l (zlen p) p :: expected (sq + 1) rest
  end.

Definition wire_all (rs : list raw_record) : list Z :=
  concat (map (fun r => match r with (t, l, p) => wire t l p end) rs).

(** The record object a caller would pass to the writer. *)
Definition to_record (r : raw_record) : record :=
  match r with (t, l, p) => make_record t l p None None end.

(** Top-level grouping: [is_grouping level rs gs] says that [gs] cuts [rs] into
    non-empty blocks, each block has no level-0 item after its first item, and
    every block but the first begins with a level-0 item. *)
Definition block_ok {A} (level : A -> Z) (g : list A) : Prop :=
  exists x xs, g = x :: xs /\ Forall (fun y => level y <> 0) xs.
Definition starts_top {A} (level : A -> Z) (g : list A) : Prop :=
  exists x xs, g = x :: xs /\ level x = 0.

Definition is_grouping {A} (level : A -> Z) (rs : list A) (gs : list (list A)) : Prop :=
  concat gs = rs /\ Forall (block_ok level) gs /\ Forall (starts_top level) (tl gs).

(** Record links.  The sister of record [i] is the record just before it when
    both have the same level.  The parent of record [i] is the record [p] before
    it whose level is one smaller and such that everything after [p] up to [i]
    has the level of [i]. *)
Definition level_at (levels : list Z) (i : nat) (v : Z) : Prop := nth_error levels i = Some v.

Definition is_sister (levels : list Z) (i j : nat) : Prop :=
  i = S j /\ exists v, level_at levels i v /\ level_at levels j v.

Definition is_parent (levels : list Z) (i p : nat) : Prop :=
  (p < i)%nat /\
  exists v, level_at levels p (v - 1) /\
            (forall k, (p < k <= i)%nat -> level_at levels k v).

(** The documented record tags (absolute ids). *)
Definition documented_tags : list (Z * string) := [
  (16, "HWPTAG_DOCUMENT_PROPERTIES"%string);
  (17, "HWPTAG_ID_MAPPINGS"%string);
  (18, "HWPTAG_BIN_DATA"%string);
  (19, "HWPTAG_FACE_NAME"%string);
  (20, "HWPTAG_BORDER_FILL"%string);
  (21, "HWPTAG_CHAR_SHAPE"%string);
  (22, "HWPTAG_TAB_DEF"%string);
  (23, "HWPTAG_NUMBERING"%string);
  (24, "HWPTAG_BULLET"%string);
  (25, "HWPTAG_PARA_SHAPE"%string);
  (26, "HWPTAG_STYLE"%string);
  (27, "HWPTAG_DOC_DATA"%string);
  (28, "HWPTAG_DISTRIBUTE_DOC_DATA"%string);
  (30, "HWPTAG_COMPATIBLE_DOCUMENT"%string);
  (31, "HWPTAG_LAYOUT_COMPATIBILITY"%string);
  (32, "HWPTAG_BEGIN_PLUS_16"%string);
  (66, "HWPTAG_PARA_HEADER"%string);
  (67, "HWPTAG_PARA_TEXT"%string);
  (68, "HWPTAG_PARA_CHAR_SHAPE"%string);
  (69, "HWPTAG_PARA_LINE_SEG"%string);
  (70, "HWPTAG_PARA_RANGE_TAG"%string);
  (71, "HWPTAG_CTRL_HEADER"%string);
  (72, "HWPTAG_LIST_HEADER"%string);
  (73, "HWPTAG_PAGE_DEF"%string);
  (74, "HWPTAG_FOOTNOTE_SHAPE"%string);
  (75, "HWPTAG_PAGE_BORDER_FILL"%string);
  (76, "HWPTAG_SHAPE_COMPONENT"%string);
  (77, "HWPTAG_TABLE"%string);
  (78, "HWPTAG_SHAPE_COMPONENT_LINE"%string);
  (79, "HWPTAG_SHAPE_COMPONENT_RECTANGLE"%string);
  (80, "HWPTAG_SHAPE_COMPONENT_ELLIPSE"%string);
  (81, "HWPTAG_SHAPE_COMPONENT_ARC"%string);
  (82, "HWPTAG_SHAPE_COMPONENT_POLYGON"%string);
  (83, "HWPTAG_SHAPE_COMPONENT_CURVE"%string);
  (84, "HWPTAG_SHAPE_COMPONENT_OLE"%string);
  (85, "HWPTAG_SHAPE_COMPONENT_PICTURE"%string);
  (86, "HWPTAG_SHAPE_COMPONENT_CONTAINER"%string);
  (87, "HWPTAG_CTRL_DATA"%string);
  (88, "HWPTAG_CTRL_EQEDIT"%string);
  (90, "HWPTAG_SHAPE_COMPONENT_TEXTART"%string);
  (91, "HWPTAG_FORM_OBJECT"%string);
  (92, "HWPTAG_MEMO_SHAPE"%string);
  (93, "HWPTAG_MEMO_LIST"%string);
  (94, "HWPTAG_FORBIDDEN_CHAR"%string);
  (95, "HWPTAG_CHART_DATA"%string);
  (115, "HWPTAG_SHAPE_COMPONENT_UNKNOWN"%string)].
