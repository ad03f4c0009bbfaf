(** Model of the XML serializer: src/hwp5/xmlformat.py 241-269 and the parts of
    Python's xml.sax.saxutils it uses. Text and names are lists of code points. *)
From Coq Require Import ZArith List Bool.
From Verif Require Import Base.
Import ListNotations.
Open Scope Z_scope.

(** Events as yielded by [startelement]: STARTEVENT with name and attribute
    dictionary (keys distinct, in insertion order), Text, ENDEVENT. *)
Inductive xevent :=
| XStart (name : list Z) (attrs : list (list Z * list Z))
| XText (t : list Z)
| XEnd (name : list Z).

(** Python's [s.replace(c, r)] for a one-character c. *)
Definition replace_char (c : Z) (r : list Z) (s : list Z) : list Z :=
  flat_map (fun x => if x =? c then r else [x]) s.

Definition AMP_ENT : list Z := [38; 97; 109; 112; 59].        (* &amp; *)
Definition GT_ENT : list Z := [38; 103; 116; 59].             (* &gt; *)
Definition LT_ENT : list Z := [38; 108; 116; 59].             (* &lt; *)
Definition QUOT_ENT : list Z := [38; 113; 117; 111; 116; 59]. (* &quot; *)
Definition NL_ENT : list Z := [38; 35; 49; 48; 59].           (* &#10; *)
Definition CR_ENT : list Z := [38; 35; 49; 51; 59].           (* &#13; *)
Definition TAB_ENT : list Z := [38; 35; 57; 59].              (* &#9; *)

(** saxutils.escape without entities (xmlformat.py 262). *)
Definition escape (data : list Z) : list Z :=
  replace_char 60 LT_ENT (replace_char 62 GT_ENT (replace_char 38 AMP_ENT data)).

(** saxutils.escape with the entities of xmlformat.py 247-249, in their order. *)
Definition escape_entities (data : list Z) : list Z :=
  replace_char 9 TAB_ENT (replace_char 10 NL_ENT (replace_char 13 CR_ENT (escape data))).

Definition contains (c : Z) (s : list Z) : bool := existsb (Z.eqb c) s.

(** saxutils.quoteattr (xmlformat.py 257). *)
Definition quoteattr (data : list Z) : list Z :=
  let data := escape_entities data in
  if contains 34 data then
    if contains 39 data then [34] ++ replace_char 34 QUOT_ENT data ++ [34]
    else [39] ++ data ++ [39]
  else [34] ++ data ++ [34].

(** xmlformat.py 258 and 263: [.replace('\x00', '')] *)
Definition drop_nul (s : list Z) : list Z := replace_char 0 [] s.

(** xmlformat.py 253-259: the chunks of one attribute. *)
Definition attr_chunks (nv : list Z * list Z) : list (list Z) :=
  [[32]; fst nv; [61]; drop_nul (quoteattr (snd nv))].

(** xmlformat.py 246-269 [xmlevents_to_textchunks], for one event. *)
Definition event_chunks (e : xevent) : list (list Z) :=
  match e with
  | XStart name attrs => [[60]; name] ++ flat_map attr_chunks attrs ++ [[62]]
  | XText t => [drop_nul (escape t)]
  | XEnd name => [[60; 47]; name; [62]]
  end.

Definition xmlevents_to_textchunks (es : list xevent) : list (list Z) := flat_map event_chunks es.

(** UTF-8 encoding of a code point; surrogates cannot be encoded. *)
Definition utf8_char (c : Z) : res (list Z) :=
  if c <? 0x80 then Ok [c]
  else if c <? 0x800 then Ok [0xc0 + c / 64; 0x80 + c mod 64]
  else if (0xd800 <=? c) && (c <? 0xe000) then Raise (OtherError 1) (* UnicodeEncodeError *)
  else if c <? 0x10000 then Ok [0xe0 + c / 4096; 0x80 + (c / 64) mod 64; 0x80 + c mod 64]
  else Ok [0xf0 + c / 262144; 0x80 + (c / 4096) mod 64; 0x80 + (c / 64) mod 64; 0x80 + c mod 64].
Fixpoint utf8_encode (s : list Z) : res (list Z) :=
  match s with
  | [] => Ok []
  | c :: r => let? b := utf8_char c in let? bs := utf8_encode r in Ok (b ++ bs)
  end.

(** xmlformat.py 241-243 [xmlevents_to_bytechunks] *)
Fixpoint encode_chunks (chunks : list (list Z)) : gen (list Z) :=
  match chunks with
  | [] => ([], Finished)
  | c :: r => match utf8_encode c with Raise e => ([], Failed e) | Ok b => gcons b (encode_chunks r) end
  end.

(** xmlmodel.py 588-598 [XmlEvents.bytechunks] with the default encoding; the
    declaration is <?xml version="1.0" encoding="utf-8"?> and a newline. *)
Definition XML_DECLARATION : list Z :=
  [60; 63; 120; 109; 108; 32; 118; 101; 114; 115; 105; 111; 110; 61; 34; 49; 46; 48; 34; 32;
   101; 110; 99; 111; 100; 105; 110; 103; 61; 34; 117; 116; 102; 45; 56; 34; 63; 62; 10].
Definition xml_bytechunks (declaration : bool) (es : list xevent) : gen (list Z) :=
  let body := encode_chunks (xmlevents_to_textchunks es) in
  if declaration then gcons XML_DECLARATION body else body.
