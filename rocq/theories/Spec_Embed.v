(** Base64 (RFC 4648) and what embedding binary data should give. *)
From Coq Require Import ZArith String List Bool.
From Verif Require Import Base Model_Dataio Model_Bintype Model_Embed Spec_Layouts.
Import ListNotations.
Open Scope string_scope.
Open Scope list_scope.
Open Scope Z_scope.

(** The value of a character (table 1). *)
Definition b64_value (c : Z) : option Z :=
  if (65 <=? c) && (c <=? 90) then Some (c - 65)
  else if (97 <=? c) && (c <=? 122) then Some (c - 97 + 26)
  else if (48 <=? c) && (c <=? 57) then Some (c - 48 + 52)
  else if c =? 43 then Some 62
  else if c =? 47 then Some 63
  else None.

(** Decoding: groups of four characters are 24 bits; a last group may end in
    one or two '=', the unused bits being zero. *)
Fixpoint b64_decode (s : list Z) : option (list Z) :=
  match s with
  | [] => Some []
  | c0 :: c1 :: c2 :: c3 :: r =>
      match b64_value c0, b64_value c1 with
      | Some v0, Some v1 =>
          if c3 =? 61 then
            match r with
            | _ :: _ => None
            | [] =>
                if c2 =? 61 then if v1 mod 16 =? 0 then Some [(v0 * 64 + v1) / 16] else None
                else match b64_value c2 with
                     | Some v2 => let n := (v0 * 4096 + v1 * 64 + v2) in
                                  if n mod 4 =? 0 then Some [n / 1024; n / 4 mod 256] else None
                     | None => None
                     end
            end
          else
            match b64_value c2, b64_value c3, b64_decode r with
            | Some v2, Some v3, Some rest =>
                let n := v0 * 262144 + v1 * 4096 + v2 * 64 + v3 in
                Some (n / 65536 :: n / 256 mod 256 :: n mod 256 :: rest)
            | _, _, _ => None
            end
      | _, _ => None
      end
  | _ => None
  end.

(** Lines of 64 characters, the last one of at least one and at most 64. *)
Fixpoint lines_of_64 (lines : list (list Z)) : Prop :=
  match lines with
  | [] => True
  | [l] => 1 <= zlen l <= 64
  | l :: r => zlen l = 64 /\ lines_of_64 r
  end.
Fixpoint separated (lines : list (list Z)) : list Z :=
  match lines with [] => [] | [l] => l | l :: r => l ++ [10] ++ separated r end.

(** A text that holds some bytes: a newline, the lines, a newline. *)
Definition base64_text (t data : list Z) : Prop :=
  exists lines, t = [10] ++ separated lines ++ [10] /\ lines_of_64 lines /\ b64_decode (concat lines) = Some data.

(** Four upper-case hexadecimal digits. *)
Definition hex_value (c : Z) : option Z :=
  if (48 <=? c) && (c <=? 57) then Some (c - 48) else if (65 <=? c) && (c <=? 70) then Some (c - 55) else None.
Definition hex4 (h : list Z) (n : Z) : Prop :=
  exists c3 c2 c1 c0 v3 v2 v1 v0, h = [c3; c2; c1; c0] /\ hex_value c3 = Some v3 /\ hex_value c2 = Some v2 /\
    hex_value c1 = Some v1 /\ hex_value c0 = Some v0 /\ n = v3 * 4096 + v2 * 256 + v1 * 16 + v0.

(** The stream of an embedded binary: BIN<4 hexadecimal digits>.<ext> *)
Definition stream_name (id : Z) (ext name : list Z) : Prop :=
  exists h, hex4 h id /\ name = zs "BIN" ++ h ++ zs "." ++ ext.

(** The attributes of a BinData record: a 16-bit word, whose low four bits say
    what follows (1: embedded), and the content, which is missing if they say
    nothing known.  [view_of]: what the user sees (C67). *)
Definition bindata_attrs (flags : Z) (content : option value) (attrs : list (string * value)) : Prop :=
  exists word groups name, view_of word = Flags flags groups /\ look "storage" groups = Some (flags mod 16, name) /\
    attrs = ("flags", word) :: match content with Some v => [("bindata", v)] | None => [] end.
Definition embedded_content (id : Z) (ext : list Z) : list (string * value) := [("storage_id", VInt id); ("ext", VText ext)].

(** What becomes of an event. *)
Inductive embedding (read : list Z -> res (list Z)) : bevent -> res bevent -> Prop :=
| em_other : forall e, b_start e = false \/ b_model e <> "BinData" -> embedding read e (Ok e)
| em_not_embedded : forall attrs flags content, bindata_attrs flags content attrs -> flags mod 16 <> 1 ->
    embedding read (mkBev true "BinData" attrs) (Ok (mkBev true "BinData" attrs))
| em_embedded : forall attrs attrs' flags id ext name data t, flags mod 16 = 1 -> stream_name id ext name -> read name = Ok data ->
    base64_text t data ->
    bindata_attrs flags (Some (VDict (embedded_content id ext))) attrs ->
    attrs' = [hd ("", VInt 0) attrs; ("bindata", VDict (embedded_content id ext ++ [("<text>", VText t); ("inline", VText (zs "true"))]))] ->
    embedding read (mkBev true "BinData" attrs) (Ok (mkBev true "BinData" attrs'))
| em_unreadable : forall attrs flags id ext name x, flags mod 16 = 1 -> stream_name id ext name -> read name = Raise x ->
    bindata_attrs flags (Some (VDict (embedded_content id ext))) attrs ->
    embedding read (mkBev true "BinData" attrs) (Raise x).

(** A stream of events is changed event by event; the first exception ends it. *)
Inductive embeddings (read : list Z -> res (list Z)) : list bevent -> outcome -> list bevent -> outcome -> Prop :=
| es_nil : forall o, embeddings read [] o [] o
| es_next : forall e e' es o out o', embedding read e (Ok e') -> embeddings read es o out o' ->
    embeddings read (e :: es) o (e' :: out) o'
| es_stop : forall e x es o, embedding read e (Raise x) -> embeddings read (e :: es) o [] (Failed x).

(** The events that records give: a BinData has the attributes above, with the
    content of an embedded binary if it is one. *)
Definition event_of_record (e : bevent) : Prop :=
  b_model e = "BinData" -> exists flags content, bindata_attrs flags content (b_attrs e) /\
    (flags mod 16 = 1 -> exists id ext, content = Some (VDict (embedded_content id ext)) /\ 0 <= id < 65536).
