(** Model of src/hwp5/filestructure.py and src/hwp5/compressed.py. *)
From Coq Require Import ZArith String Ascii List Bool.
From Verif Require Import Base Model_Text Model_Dataio Model_Bintype Model_XmlText Model_Storage.
Import ListNotations.
Open Scope string_scope.
Open Scope list_scope.
Open Scope Z_scope.

(** filestructure.py 49 [HWP5_SIGNATURE] *)
Definition HWP5_SIGNATURE : list Z := zs "HWP Document File" ++ repeat_z 0 15.

(** filestructure.py 73-85: the declaration of the flags. *)
Definition header_flags : list (string * flag_field) :=
  [("compressed", (0, 0, None)); ("password", (1, 1, None)); ("distributable", (2, 2, None));
   ("script", (3, 3, None)); ("drm", (4, 4, None)); ("xmltemplate_storage", (5, 5, None));
   ("history", (6, 6, None)); ("cert_signed", (7, 7, None)); ("cert_encrypted", (8, 8, None));
   ("cert_signature_extra", (9, 9, None)); ("cert_drm", (10, 10, None)); ("ccl", (11, 11, None))].
(** filestructure.py 87-92 [FileHeader.attributes] *)
Definition file_header_type : ty unit :=
  TStruct unit
    (MCons unit "signature" None None (TPrim unit (PBytes 32))
    (MCons unit "version" None None (TPrim unit PVersion)
    (MCons unit "flags" None None (TFlags unit UINT32 header_flags)
    (MCons unit "reserved" None None (TPrim unit (PBytes 216))
    (MNil unit))))).

(** filestructure.py 374-381 [HwpFileHeader.to_dict]: the struct has 6 events. *)
Definition header_dict (b : list Z) : res (list (string * value)) :=
  match fst (read_type unit 10 file_header_type tt None (open_bytes b)) with
  | Some (Ok (VDict d)) => Ok d
  | Some (Ok _) => Raise TypeError
  | Some (Raise e) => Raise e
  | None => Raise AssertionError
  end.
Definition dict_item (k : string) (d : list (string * value)) : res value :=
  match dict_get k d with Some v => Ok v | None => Raise KeyError end.
(** 383-396 [get_version], [get_signature], [get_flags] *)
Definition header_version (b : list Z) : res value := let? d := header_dict b in dict_item "version" d.
Definition header_signature (b : list Z) : res (list Z) :=
  let? d := header_dict b in
  let? v := dict_item "signature" d in
  match v with VBytes s => Ok s | _ => Raise TypeError end.
Definition header_flags_value (b : list Z) : res Z :=
  let? d := header_dict b in
  let? v := dict_item "flags" d in
  match v with VFlags _ n => Ok n | _ => Raise TypeError end.
(** An attribute of the flags value. *)
Definition flag (name : string) (n : Z) : res bool :=
  match dict_get name header_flags with
  | Some (lsb, msb, _) => Ok (negb (get_int_value lsb msb n =? 0))
  | None => Raise AttributeError
  end.

(** Python's [sorted] of pairs with distinct text keys. *)
Fixpoint text_ltb (a b : list Z) : bool :=
  match a, b with
  | [], [] => false
  | [], _ => true
  | _, [] => false
  | x :: a', y :: b' => if x <? y then true else if y <? x then false else text_ltb a' b'
  end.
Fixpoint insert_item (e : list Z * list Z) (l : list (list Z * list Z)) : list (list Z * list Z) :=
  match l with
  | [] => [e]
  | f :: r => if text_ltb (fst e) (fst f) then e :: l else f :: insert_item e r
  end.
Definition sorted_items (l : list (list Z * list Z)) : list (list Z * list Z) := fold_left (fun acc e => insert_item e acc) l [].

(** 398-410 [open_text]; [dictvalue] is dataio.py 222-224.  The values are
    kept as the texts that [format] gives. *)
Definition version_text (v : value) : res (list Z) :=
  match v with
  | VTuple [VInt a; VInt b; VInt c; VInt d] => Ok (fmt_d a ++ zs "." ++ fmt_d b ++ zs "." ++ fmt_d c ++ zs "." ++ fmt_d d)
  | _ => Raise TypeError
  end.
Definition header_text (b : list Z) : res (list Z) :=
  let? signature := header_signature b in
  let signature := ztake (zlen (zs "HWP Document File")) signature in
  let? flags := header_flags_value b in
  let d := map (fun nv => (zs (fst nv), fmt_d (snd nv))) (flags_dictvalue header_flags flags) in
  let? version := header_version b in
  let? v := version_text version in
  utf8_encode (concat (map (fun kv => fst kv ++ zs ": " ++ snd kv ++ [10]) (sorted_items (d ++ [(zs "signature", signature); (zs "version", v)])))).

(** 369-373, 412-413: an object with the [open] of the item; an item without
    [open] has no such attribute. *)
Definition hwp_file_header (x : item) : res item :=
  if is_stream x then Ok (stream_item (open x) [(zs ".txt", let? b := open x in header_text b)])
  else Raise AttributeError.

(** 104-115 [storage_is_hwp5file] *)
Definition storage_is_hwp5file (x : item) : res bool :=
  match get x (zs "FileHeader") with
  | Raise KeyError => Ok false
  | Raise e => Raise e
  | Ok y => let? h := hwp_file_header y in
            let? b := open h in
            let? s := header_signature b in
            Ok (if list_eq_dec Z.eq_dec s HWP5_SIGNATURE then true else false)
  end.

(** InvalidHwp5FileError *)
Definition InvalidHwp5File : exn := OtherError 2.

Section Layers.
  (** zlib.decompress(b, -15): None is zlib.error. *)
  Variable inflate : list Z -> option (list Z).
  (** hwp5.distdoc.decode, see Model_Distdoc. *)
  Variable distdoc : list Z -> res (list Z).
  (** 297-299 [open_utf8] and 511-517 [HwpSummaryInfo.open_text] *)
  Variable utf8_text : list Z -> res (list Z).
  Variable summary_text : list Z -> res (list Z).

  (** compressed.py 65-79 [decompress] *)
  Definition decompress (b : list Z) : list Z := match inflate b with Some d => d | None => b end.

  (** filestructure.py 118-121 [CompressedStream] *)
  Definition compressed_stream (x : item) : item := open_wrapper (let? b := open x in Ok (decompress b)) (formats x) x.
  (** 124-131 [CompressedStorage] *)
  Definition compressed_storage (x : item) : item :=
    mkItem true (iter x) (fun n => let? y := get x n in Ok (if is_stream y then compressed_stream y else y))
           (is_stream x) (open x) (formats x).
  (** 134-149 [PasswordProtectedStream], [PasswordProtectedStorage] *)
  Definition password_stream (x : item) : item := open_wrapper (open x) (formats x) x.
  Definition password_storage (x : item) : item :=
    mkItem true (iter x) (fun n => let? y := get x n in Ok (if is_stream y then password_stream y else y))
           (is_stream x) (open x) (formats x).
  (** 161-171 [VersionSensitiveItem] *)
  Definition version_sensitive (x : item) : item := open_wrapper (open x) [] x.
  (** 210-215 [Hwp5DistDocStream.open] *)
  Definition distdoc_stream (x : item) : item := open_wrapper (let? b := open x in distdoc b) [] x.
  (** 262-267 [Hwp5DistDocStorage] *)
  Definition distdoc_storage (x : item) : item :=
    conversion_storage (fun n => Some (fun _ => let? y := get x n in Ok (distdoc_stream y))) x.
  (** 289-299 [PreviewText] *)
  Definition preview_text (x : item) : res item :=
    if is_stream x then Ok (stream_item (open x) [(zs ".utf8", let? b := open x in utf8_text b)]) else Raise AttributeError.
  (** 416-419 [HwpSummaryInfo] *)
  Definition summary_info (x : item) : item := open_wrapper (open x) [(zs ".txt", let? b := open x in summary_text b)] x.
  (** 329-344 [Sections] *)
  Definition sections (x : item) : item :=
    mkItem true (iter x) (fun n => let? _ := get x n in let? y := get x n in Ok (version_sensitive y))
           (is_stream x) (open x) [].

  Definition named (n : name) (l : list string) : bool := existsb (fun s => name_eqb n (zs s)) l.

  (** 152-158 [Hwp5PasswordProtectedDoc] *)
  Definition password_conv (n : name) : option (item -> res item) :=
    if named n ["BinData"; "BodyText"; "Scripts"; "ViewText"] then Some (fun y => Ok (password_storage y))
    else if named n ["DocInfo"] then Some (fun y => Ok (password_stream y))
    else None.
  (** 197-199 *)
  Definition base_conv (n : name) : option (item -> res item) :=
    if named n ["FileHeader"] then Some hwp_file_header else None.
  (** 270-274 [Hwp5DistDoc] *)
  Definition distdoc_conv (n : name) : option (item -> res item) :=
    if named n ["Scripts"; "ViewText"] then Some (fun y => Ok (distdoc_storage y)) else None.
  (** 277-286 [Hwp5Compression] *)
  Definition compression_conv (n : name) : option (item -> res item) :=
    if named n ["BinData"; "BodyText"; "ViewText"] then Some (fun y => Ok (compressed_storage y))
    else if named n ["DocInfo"] then Some (fun y => Ok (compressed_stream y))
    else if named n ["Scripts"] then Some (fun y => Ok (compressed_storage y))
    else None.
  (** 556-566 [Hwp5File.resolve_conversion_for]; the version of the header has
      been read when the file was opened. *)
  Definition file_conv (n : name) : option (item -> res item) :=
    if named n ["DocInfo"] then Some (fun y => Ok (version_sensitive y))
    else if named n ["BodyText"] then Some (fun y => Ok (sections y))
    else if named n ["ViewText"] then Some (fun y => Ok (sections y))
    else if named n ["PrvText"] then Some preview_text
    else if name_eqb n (5 :: zs "HwpSummaryInformation") then Some (fun y => Ok (summary_info y))
    else None.

  (** 174-207 [Hwp5FileBase] *)
  Definition hwp5_file_base (x : item) : res item :=
    let? ok := storage_is_hwp5file x in
    if ok then Ok (conversion_storage base_conv x) else Raise InvalidHwp5File.
  (** [stg.header.flags] *)
  Definition storage_flags (x : item) : res Z :=
    let? h := get x (zs "FileHeader") in let? b := open h in header_flags_value b.

  (** 528-554 [Hwp5File] *)
  Definition hwp5_file (x : item) : res item :=
    let? stg := hwp5_file_base x in
    let? flags := storage_flags stg in
    let? password := flag "password" flags in
    if password then Ok (conversion_storage file_conv (conversion_storage password_conv stg))
    else
      let? distributable := flag "distributable" flags in
      let stg := if distributable then conversion_storage distdoc_conv stg else stg in
      let? compressed := flag "compressed" flags in
      let stg := if compressed then conversion_storage compression_conv stg else stg in
      Ok (conversion_storage file_conv stg).

  (** 597-602 [text] *)
  Definition file_text (h : item) : res item :=
    let? flags := storage_flags h in
    let? distributable := flag "distributable" flags in
    get h (zs (if distributable then "ViewText" else "BodyText")).
End Layers.

(** ** Sections, filestructure.py 346-366 *)
(** Python's [int(text)], base 10.  Simplification: of the characters beyond
    ASCII none counts as white space or digit. *)
Definition is_space (c : Z) : bool := ((9 <=? c) && (c <=? 13)) || ((28 <=? c) && (c <=? 32)).
Definition is_decdigit (c : Z) : bool := (48 <=? c) && (c <=? 57).
Fixpoint skip_spaces (l : list Z) : list Z :=
  match l with [] => [] | c :: r => if is_space c then skip_spaces r else l end.
Definition strip (l : list Z) : list Z := rev (skip_spaces (rev (skip_spaces l))).
(** Digits with single underscores between them; [digit] tells whether the
    last character was a digit. *)
Fixpoint int_digits (digit : bool) (acc : Z) (l : list Z) : option Z :=
  match l with
  | [] => if digit then Some acc else None
  | c :: r => if is_decdigit c then int_digits true (acc * 10 + (c - 48)) r
              else if (c =? 95) && digit then int_digits false acc r
              else None
  end.
Definition signed_int (l : list Z) : option Z :=
  match l with
  | 43 :: r => int_digits false 0 r
  | 45 :: r => match int_digits false 0 r with Some n => Some (- n) | None => None end
  | r => int_digits false 0 r
  end.
Definition py_int (l : list Z) : option Z := signed_int (strip l).
Fixpoint starts_with (p l : list Z) : option (list Z) :=
  match p, l with
  | [], _ => Some l
  | a :: p', b :: l' => if a =? b then starts_with p' l' else None
  | _, [] => None
  end.
Definition section_index (n : name) : option Z :=
  match starts_with (zs "Section") n with Some r => py_int r | None => None end.
(** [list.sort] *)
Fixpoint insert_int (x : Z) (l : list Z) : list Z :=
  match l with [] => [x] | y :: r => if x <? y then x :: l else y :: insert_int x r end.
Definition sort_ints (l : list Z) : list Z := fold_left (fun acc x => insert_int x acc) l [].
(** 346-361 [section_indexes] *)
Definition section_indexes (x : item) : res (list Z) :=
  match iter x with
  | (names, Failed e) => Raise e
  | (names, _) => Ok (sort_ints (flat_map (fun n => match section_index n with Some i => [i] | None => [] end) names))
  end.
(** 343-344 [section], 363-366 [sections] *)
Definition section (x : item) (idx : Z) : res item := get x (zs "Section" ++ fmt_d idx).
Fixpoint all_ok {A} (l : list (res A)) : res (list A) :=
  match l with [] => Ok [] | r :: t => let? a := r in let? l' := all_ok t in Ok (a :: l') end.
Definition all_sections (x : item) : res (list item) :=
  let? l := section_indexes x in all_ok (map (section x) l).
