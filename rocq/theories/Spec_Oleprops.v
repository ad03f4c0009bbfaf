(** Specification of OLE property sets ([MS-OLEPS]): where the bytes are and
    what they mean. *)
From Coq Require Import ZArith String List Bool Permutation Sorted.
From Verif Require Import Base Spec_Text Spec_Dataio Spec_Filestructure Model_Oleprops.
Import ListNotations.
Open Scope string_scope.
Open Scope list_scope.
Open Scope Z_scope.

(** [x] stands at offset [off] of [b]. *)
Definition at_offset (b : list Z) (off : Z) (x : list Z) : Prop :=
  exists before after, b = before ++ x ++ after /\ zlen before = off.

Definition u16 (n : Z) : list Z := number_bytes 2 n.
Definition u32 (n : Z) : list Z := number_bytes 4 n.
Definition is_u32 (n : Z) : Prop := 0 <= n < 2 ^ 32.

(** A value with its type word.  The reader looks at the low 17 bits. *)
Inductive typed_value : Z -> pvalue -> list Z -> Prop :=
| tv_int : forall w n, is_u32 w -> w mod 2 ^ 17 = 3 -> - 2 ^ 31 <= n < 2 ^ 31 ->
    typed_value 3 (PVInt n) (u32 w ++ u32 n)
| tv_text : forall w cs nul, is_u32 w -> w mod 2 ^ 17 = 31 -> Forall scalar (cs ++ [nul]) -> zlen (utf16_units (cs ++ [nul])) < 2 ^ 32 ->
    typed_value 31 (PVText cs) (u32 w ++ u32 (zlen (utf16_units (cs ++ [nul]))) ++ utf16le_bytes (cs ++ [nul]))
| tv_no_text : forall w, is_u32 w -> w mod 2 ^ 17 = 31 ->
    typed_value 31 (PVText []) (u32 w ++ u32 0)
| tv_time : forall w n, is_u32 w -> w mod 2 ^ 17 = 64 -> 0 <= n < 2 ^ 64 ->
    typed_value 64 (PVTime n) (u32 w ++ number_bytes 8 n).

(** The dictionary property: a counted list of ids with counted names; the last
    byte of a name is not part of it. *)
Definition entry_bytes (e : Z * list Z) : list Z := u32 (fst e) ++ u32 (zlen (snd e)) ++ snd e.
Definition dictionary_bytes (l : list (Z * list Z)) : list Z := u32 (zlen l) ++ concat (map entry_bytes l).
Definition entry_ok (e : Z * list Z) : Prop := is_u32 (fst e) /\ zlen (snd e) < 2 ^ 32 /\ all_bytes (snd e).
Definition entry_names (l : list (Z * list Z)) : list (Z * list Z) := map (fun e => (fst e, removelast (snd e))) l.

(** What is stored for the property [id]: a dictionary for 0, else a typed value. *)
Inductive stored (b : list Z) (off : Z) : Z -> option Z -> pvalue -> Prop :=
| stored_dictionary : forall l, zlen l < 2 ^ 32 -> Forall entry_ok l -> at_offset b off (dictionary_bytes l) ->
    stored b off 0 None (PVDict (entry_names l))
| stored_value : forall id code v x, id <> 0 -> typed_value code v x -> at_offset b off x ->
    stored b off id (Some code) v.

(** The last entry with a key. *)
Definition last_with {K V} (k : K) (v : V) (l : list (K * V)) : Prop :=
  exists l1 l2, l = l1 ++ (k, v) :: l2 /\ ~ In k (map fst l2).

(** A property set: its size, then a counted list of ids and offsets. *)
Definition desc_bytes (d : Z * Z) : list Z := u32 (fst d) ++ u32 (snd d).
Definition set_header_bytes (size : Z) (descs : list (Z * Z)) : list Z :=
  u32 size ++ u32 (zlen descs) ++ concat (map desc_bytes descs).
Definition set_header_ok (size : Z) (descs : list (Z * Z)) : Prop :=
  is_u32 size /\ zlen descs < 2 ^ 32 /\ Forall (fun d => is_u32 (fst d) /\ is_u32 (snd d)) descs.
Definition set_at (b : list Z) (off size : Z) (descs : list (Z * Z)) : Prop :=
  set_header_ok size descs /\ at_offset b off (set_header_bytes size descs).

(** The order of the properties: the code page (1), the dictionary (0), and the
    others as they are first listed. *)
Definition first_listed (ids : list Z) : list Z := rev (nodup Z.eq_dec (rev ids)).
Definition reading_order (descs : list (Z * Z)) : list Z :=
  let ids := first_listed (map fst descs) in
  filter (Z.eqb 1) ids ++ filter (Z.eqb 0) ids ++ filter (fun i => negb (Z.eqb i 0) && negb (Z.eqb i 1)) ids.

(** The name of an identifier in the given formats. *)
Definition labelled (formats : list (list Z * list (Z * list Z))) (fmtid : list Z) (id : Z) (label : option (list Z)) : Prop :=
  match label with
  | Some t => exists ids, last_with fmtid ids formats /\ last_with id t ids
  | None => forall ids, last_with fmtid ids formats -> ~ In id (map fst ids)
  end.

(** [p] is what the set at [off] lists last for its id, as stored there. *)
Definition listed_property (formats : list (list Z * list (Z * list Z))) (b : list Z) (fmtid : list Z) (off : Z) (descs : list (Z * Z)) (p : property) : Prop :=
  last_with (p_id p) (p_offset p) descs /\ stored b (off + p_offset p) (p_id p) (p_code p) (p_value p) /\
  labelled formats fmtid (p_id p) (p_label p).

(** A set is readable if it has a dictionary, or nothing else than a code page. *)
Definition has_dictionary (descs : list (Z * Z)) : Prop := In 0 (map fst descs).
Definition needs_no_dictionary (descs : list (Z * Z)) : Prop := forall i, In i (map fst descs) -> i = 1.

Definition set_reads_as (formats : list (list Z * list (Z * list Z))) (b : list Z) (s : property_set) : Prop :=
  set_at b (ps_offset s) (ps_bytesize s) (ps_descs s) /\
  (has_dictionary (ps_descs s) \/ needs_no_dictionary (ps_descs s)) /\
  map p_id (ps_properties s) = reading_order (ps_descs s) /\
  Forall (listed_property formats b (ps_fmtid s) (ps_offset s) (ps_descs s)) (ps_properties s).

(** A GUID is stored with its first three groups reversed. *)
Definition is_guid (u : list Z) : Prop := zlen u = 16 /\ all_bytes u.
Definition guid_bytes (u : list Z) : list Z :=
  rev (zslice 0 4 u) ++ rev (zslice 4 6 u) ++ rev (zslice 6 8 u) ++ zdrop 8 u.

Definition stream_header_bytes (h : stream_header) : list Z :=
  u16 (psh_byteOrder h) ++ u16 (psh_version h) ++ u32 (psh_systemIdentifier h) ++ guid_bytes (psh_clsid h) ++
  u32 (zlen (psh_descs h)) ++ concat (map (fun d => guid_bytes (fst d) ++ u32 (snd d)) (psh_descs h)).
Definition stream_header_ok (h : stream_header) : Prop :=
  0 <= psh_byteOrder h < 2 ^ 16 /\ 0 <= psh_version h < 2 ^ 16 /\ is_u32 (psh_systemIdentifier h) /\ is_guid (psh_clsid h) /\
  zlen (psh_descs h) < 2 ^ 32 /\ Forall (fun d => is_guid (fst d) /\ is_u32 (snd d)) (psh_descs h).

Definition stream_reads_as (formats : list (list Z * list (Z * list Z))) (b : list Z) (s : property_set_stream) : Prop :=
  stream_header_ok (pss_header s) /\ at_offset b 0 (stream_header_bytes (pss_header s)) /\
  map (fun p => (ps_fmtid p, ps_offset p)) (pss_sets s) = psh_descs (pss_header s) /\
  Forall (set_reads_as formats b) (pss_sets s).

(** For all sufficient fuel. *)
Definition eventually {X} (f : nat -> X) (x : X) : Prop := exists n, forall m, (n <= m)%nat -> f m = x.

(** ** Text *)
Definition hex_digit (c d : Z) : Prop := (0 <= d <= 9 /\ c = 48 + d) \/ (10 <= d <= 15 /\ c = 87 + d).
Inductive hex_number : list Z -> Z -> Prop :=
| hex_one : forall c d, hex_digit c d -> hex_number [c] d
| hex_more : forall l n c d, hex_number l n -> hex_digit c d -> hex_number (l ++ [c]) (16 * n + d).
(** At least [w] digits, with leading zeros only as needed for that. *)
Definition hex_field (w : Z) (t : list Z) (n : Z) : Prop :=
  hex_number t n /\ w <= zlen t /\ (1 < zlen t -> w < zlen t -> hd 0 t <> 48).

(** Decimal numbers with a sign. *)
Definition decimal (t : list Z) (n : Z) : Prop :=
  (0 <= n /\ numeral t n) \/ (n < 0 /\ exists u, numeral u (- n) /\ t = 45 :: u).

(** 8-4-4-4-12 hexadecimal digits. *)
Definition guid_text (t : list Z) (u : list Z) : Prop :=
  exists h, Forall2 (fun x b => hex_field 2 x b /\ zlen x = 2) h u /\
  t = concat (zslice 0 4 h) ++ zs "-" ++ concat (zslice 4 6 h) ++ zs "-" ++ concat (zslice 6 8 h) ++ zs "-" ++
      concat (zslice 8 10 h) ++ zs "-" ++ concat (zdrop 10 h).

Section TextSpec.
  Variable time_text : Z -> res (list Z).

  Inductive shown : pvalue -> list Z -> Prop :=
  | shown_int : forall n t, decimal t n -> shown (PVInt n) t
  | shown_text : forall t, shown (PVText t) t
  | shown_time : forall n t, time_text n = Ok t -> shown (PVTime n) t.

  Definition label_text (l : option (list Z)) : list Z := match l with Some t => t | None => [] end.

  Inductive entry_line : Z * list Z -> list Z -> Prop :=
  | el : forall i n t, decimal t i -> entry_line (i, n) (zs "            - " ++ t ++ zs ": " ++ n).

  Inductive property_text (off : Z) : property -> list (list Z) -> Prop :=
  | pt_dictionary : forall o l c entries h1 h2 lines, hex_field 8 h1 (off + o) -> hex_field 8 h2 0 ->
      Forall2 entry_line entries lines ->
      property_text off (mkProperty 0 o l c (PVDict entries))
        ((zs "- " ++ h1 ++ zs ": " ++ label_text l ++ zs "(=0x" ++ h2 ++ zs "):") :: lines)
  | pt_value : forall i o l c v h1 h2 t, i <> 0 -> hex_field 8 h1 (off + o) -> hex_field 8 h2 i -> shown v t ->
      property_text off (mkProperty i o l c v)
        [zs "- " ++ h1 ++ zs ": " ++ label_text l ++ zs "(=0x" ++ h2 ++ zs "): " ++ t].

  (** By offset; properties at the same offset keep their order. *)
  Definition by_offset (l m : list property) : Prop :=
    Permutation l m /\ StronglySorted (fun p q => p_offset p <= p_offset q) m /\
    forall o, filter (fun p => p_offset p =? o) m = filter (fun p => p_offset p =? o) l.

  Inductive set_text (s : property_set) : list (list Z) -> Prop :=
  | st : forall h g sorted texts, hex_field 8 h (ps_offset s) -> guid_text g (ps_fmtid s) ->
      by_offset (ps_properties s) sorted -> Forall2 (property_text (ps_offset s)) sorted texts ->
      set_text s ((zs "- " ++ h ++ zs ": Property Set " ++ g) :: (zs "            " ++ repeat 45 (13 + length g)%nat) :: concat texts).

  Inductive stream_text (s : property_set_stream) : list (list Z) -> Prop :=
  | sst : forall h v i g texts, hex_field 1 h (psh_byteOrder (pss_header s)) -> decimal v (psh_version (pss_header s)) ->
      hex_field 8 i (psh_systemIdentifier (pss_header s)) -> guid_text g (psh_clsid (pss_header s)) ->
      Forall2 set_text (pss_sets s) texts ->
      stream_text s ([zs "- ByteOrder: 0x" ++ h; zs "- Version: " ++ v; zs "- SystemIdentifier: 0x" ++ i; zs "- CLSID: " ++ g; []] ++ concat texts).

  (** ** The summary information of a HWP document *)
  Definition summary_guid : list Z :=
    [0x9f; 0xa2; 0xb6; 0x60; 0x10; 0x61; 0x11; 0xd4; 0xb4; 0xc6; 0x00; 0x60; 0x97; 0xc0; 0x9d; 0x8c].

  (** The names of the identifiers. *)
  Definition identifier_names : list (Z * list Z) :=
    map (fun e => (fst e, zs (snd e)))
    [(0, "PID_DICTIONARY"); (1, "PID_CODEPAGE"); (2147483648, "PID_LOCALE"); (2147483651, "PID_BEHAVIOR"); (2, "PIDSI_TITLE");
     (3, "PIDSI_SUBJECT"); (4, "PIDSI_AUTHOR"); (5, "PIDSI_KEYWORDS"); (6, "PIDSI_COMMENTS"); (7, "PIDSI_TEMPLATE"); (8, "PIDSI_LASTAUTHOR");
     (9, "PIDSI_REVNUMBER"); (10, "PIDSI_EDITTIME"); (11, "PIDSI_LASTPRINTED"); (12, "PIDSI_CREATE_DTM"); (13, "PIDSI_LASTSAVE_DTM");
     (14, "PIDSI_PAGECOUNT"); (15, "PIDSI_WORDCOUNT"); (16, "PIDSI_CHARCOUNT"); (17, "PIDSI_THUMBNAIL"); (18, "PIDSI_APPNAME");
     (19, "PIDSI_SECURITY"); (20, "HWPPIDSI_DATE_STR"); (21, "HWPPIDSI_PARACOUNT")].

  (** The printed fields with their property ids. *)
  Definition printed_fields : list (string * Z) :=
    [("Title", 2); ("Subject", 3); ("Author", 4); ("Keywords", 5); ("Comments", 6); ("Last saved by", 8);
     ("Revision Number", 9); ("Last Printed at", 11); ("Created at", 12); ("Last saved at", 13); ("Number of pages", 14);
     ("Date", 20); ("Number of paragraphs", 21)].

  (** Line of a field whose property is [v]. *)
  Definition field_line (props : list property) (f : string * Z) (line : list Z) : Prop :=
    exists p t, In p props /\ p_id p = snd f /\ shown (p_value p) t /\ line = zs (fst f) ++ zs ": " ++ t.

  (** All the times can be shown. *)
  Definition times_ok (props : list property) : Prop :=
    forall p n, In p props -> p_value p = PVTime n -> exists t, time_text n = Ok t.

  (** A summary information stream with its first set. *)
  Definition is_summary (formats : list (list Z * list (Z * list Z))) (b : list Z) (s : property_set_stream) (set : property_set) : Prop :=
    stream_reads_as formats b s /\ psh_clsid (pss_header s) = summary_guid /\ exists r, pss_sets s = set :: r.
End TextSpec.
