(** What an XML 1.0 reader makes of a text (the productions for element
    content, tags, attribute values, references), independent of the model. *)
From Coq Require Import ZArith String List Bool.
From Verif Require Import Base Model_XmlText.
Import ListNotations.
Open Scope Z_scope.

(** The declaration at the beginning of a document in UTF-8. *)
Definition xml_declaration : list Z := zs "<?xml version=""1.0"" encoding=""utf-8""?>" ++ [10].

(** Char production. *)
Definition xml_char (c : Z) : Prop :=
  c = 9 \/ c = 10 \/ c = 13 \/ 32 <= c <= 0xd7ff \/ 0xe000 <= c <= 0xfffd \/ 0x10000 <= c <= 0x10ffff.
Definition xml_charb (c : Z) : bool :=
  (c =? 9) || (c =? 10) || (c =? 13) || ((32 <=? c) && (c <=? 0xd7ff)) || ((0xe000 <=? c) && (c <=? 0xfffd)) || ((0x10000 <=? c) && (c <=? 0x10ffff)).

(** References between & and ; : the five predefined entities and decimal
    character references. *)
Fixpoint decimal (acc : Z) (s : list Z) : option Z :=
  match s with
  | [] => Some acc
  | c :: r => if (48 <=? c) && (c <=? 57) then decimal (acc * 10 + (c - 48)) r else None
  end.
Definition reference (s : list Z) : option Z :=
  match s with
  | [97; 109; 112] => Some 38
  | [108; 116] => Some 60
  | [103; 116] => Some 62
  | [113; 117; 111; 116] => Some 34
  | [97; 112; 111; 115] => Some 39
  | 35 :: d :: r => match decimal 0 (d :: r) with Some v => if xml_charb v then Some v else None | None => None end
  | _ => None
  end.

(** [content_text out t]: the characters [out] between tags denote the text t. *)
Inductive content_text : list Z -> list Z -> Prop :=
| ct_nil : content_text [] []
| ct_char : forall c out t, xml_char c -> c <> 13 -> c <> 60 -> c <> 38 -> c <> 62 -> content_text out t -> content_text (c :: out) (c :: t)
| ct_ref : forall s c out t, ~ In 59 s -> Forall xml_char s -> reference s = Some c -> content_text out t ->
    content_text ([38] ++ s ++ [59] ++ out) (c :: t).

(** [attr_value q out v]: the characters [out] between two quotes q denote the
    attribute value v (a raw tab or newline would denote a space). *)
Inductive attr_value (q : Z) : list Z -> list Z -> Prop :=
| av_nil : attr_value q [] []
| av_char : forall c out v, xml_char c -> c <> 9 -> c <> 10 -> c <> 13 -> c <> 60 -> c <> 38 -> c <> q -> attr_value q out v -> attr_value q (c :: out) (c :: v)
| av_space : forall c out v, c = 9 \/ c = 10 -> attr_value q out v -> attr_value q (c :: out) (32 :: v)
| av_ref : forall s c out v, ~ In 59 s -> Forall xml_char s -> reference s = Some c -> attr_value q out v ->
    attr_value q ([38] ++ s ++ [59] ++ out) (c :: v).

(** End-of-line handling done before anything else. *)
Fixpoint normalize_eol (s : list Z) : list Z :=
  match s with
  | [] => []
  | c :: r => if c =? 13 then 10 :: (match r with d :: r' => if d =? 10 then normalize_eol r' else normalize_eol r | [] => [] end)
              else c :: normalize_eol r
  end.

(** Names (the ASCII part of the Name production). *)
Definition name_start (c : Z) : bool := ((65 <=? c) && (c <=? 90)) || ((97 <=? c) && (c <=? 122)) || (c =? 95) || (c =? 58).
Definition name_char (c : Z) : bool := name_start c || ((48 <=? c) && (c <=? 57)) || (c =? 45) || (c =? 46).
Definition xml_name (n : list Z) : Prop :=
  match n with [] => False | c :: r => name_start c = true /\ Forall (fun x => name_char x = true) r end.

(** A reader of element content: a machine over the characters, with the stack
    of open elements; it reports events, and fails on anything ill-formed. *)
Inductive mstate :=
| SText (acc : list Z)                        (* character data so far *)
| STextRef (acc ref : list Z)
| SLt (acc : list Z)                          (* after '<' *)
| SName (n : list Z)                          (* start tag name *)
| SSpace (n : list Z) (attrs : list (list Z * list Z))   (* after white space in a tag *)
| SAttr (n : list Z) (attrs : list (list Z * list Z)) (a : list Z)
| SEq (n : list Z) (attrs : list (list Z * list Z)) (a : list Z)
| SVal (n : list Z) (attrs : list (list Z * list Z)) (a : list Z) (q : Z) (v : list Z)
| SValRef (n : list Z) (attrs : list (list Z * list Z)) (a : list Z) (q : Z) (v ref : list Z)
| SAfter (n : list Z) (attrs : list (list Z * list Z))   (* after a closing quote *)
| SClose (n : list Z).                        (* end tag name *)

Definition leqb (a b : list Z) : bool := if list_eq_dec Z.eq_dec a b then true else false.
Definition flush (acc : list Z) (es : list xevent) : list xevent := match acc with [] => es | _ => XText acc :: es end.

Fixpoint xml_machine (st : mstate) (stack : list (list Z)) (s : list Z) : option (list xevent) :=
  match s with
  | [] => match st, stack with SText acc, [] => Some (flush acc []) | _, _ => None end
  | c :: r =>
      if negb (xml_charb c) then None else
      match st with
      | SText acc => if c =? 60 then xml_machine (SLt acc) stack r
                     else if c =? 38 then xml_machine (STextRef acc []) stack r
                     else xml_machine (SText (acc ++ [c])) stack r
      | STextRef acc ref => if c =? 59 then match reference ref with Some x => xml_machine (SText (acc ++ [x])) stack r | None => None end
                            else xml_machine (STextRef acc (ref ++ [c])) stack r
      | SLt acc => if c =? 47 then option_map (flush acc) (xml_machine (SClose []) stack r)
                   else if name_start c then option_map (flush acc) (xml_machine (SName [c]) stack r)
                   else None
      | SName n => if c =? 62 then option_map (cons (XStart n [])) (xml_machine (SText []) (n :: stack) r)
                   else if c =? 32 then xml_machine (SSpace n []) stack r
                   else if name_char c then xml_machine (SName (n ++ [c])) stack r
                   else None
      | SSpace n attrs => if name_start c then xml_machine (SAttr n attrs [c]) stack r else None
      | SAttr n attrs a => if c =? 61 then
                             if existsb (fun kv => leqb a (fst kv)) attrs then None (* attribute repeated *)
                             else xml_machine (SEq n attrs a) stack r
                           else if name_char c then xml_machine (SAttr n attrs (a ++ [c])) stack r
                           else None
      | SEq n attrs a => if (c =? 34) || (c =? 39) then xml_machine (SVal n attrs a c []) stack r else None
      | SVal n attrs a q v => if c =? q then xml_machine (SAfter n (attrs ++ [(a, v)])) stack r
                              else if c =? 60 then None
                              else if c =? 38 then xml_machine (SValRef n attrs a q v []) stack r
                              else xml_machine (SVal n attrs a q (v ++ [if (c =? 9) || (c =? 10) then 32 else c])) stack r
      | SValRef n attrs a q v ref => if c =? 59 then match reference ref with Some x => xml_machine (SVal n attrs a q (v ++ [x])) stack r | None => None end
                                     else xml_machine (SValRef n attrs a q v (ref ++ [c])) stack r
      | SAfter n attrs => if c =? 62 then option_map (cons (XStart n attrs)) (xml_machine (SText []) (n :: stack) r)
                          else if c =? 32 then xml_machine (SSpace n attrs) stack r
                          else None
      | SClose n => if c =? 62 then
                      match stack with
                      | m :: rest => if leqb n m then option_map (cons (XEnd n)) (xml_machine (SText []) rest r) else None
                      | [] => None
                      end
                    else if name_char c then xml_machine (SClose (n ++ [c])) stack r
                    else None
      end
  end.

Definition xml_read (doc : list Z) : option (list xevent) := xml_machine (SText []) [] (normalize_eol doc).

(** Well-nested event sequences: every end closes the innermost open element,
    and at the end nothing is open. *)
Inductive nested : list (list Z) -> list xevent -> Prop :=
| nested_nil : nested [] []
| nested_start : forall st n a es, nested (n :: st) es -> nested st (XStart n a :: es)
| nested_text : forall st t es, nested st es -> nested st (XText t :: es)
| nested_end : forall st n es, nested st es -> nested (n :: st) (XEnd n :: es).

(** Writable events: legal names, distinct attribute names, legal characters
    apart from NUL, and no carriage return in character data. *)
Definition legal (c : Z) : Prop := c = 0 \/ xml_char c.
Definition writable (e : xevent) : Prop :=
  match e with
  | XStart n attrs => xml_name n /\ NoDup (map fst attrs) /\ Forall (fun kv => xml_name (fst kv) /\ Forall legal (snd kv)) attrs
  | XText t => Forall (fun c => legal c /\ c <> 13) t
  | XEnd n => xml_name n
  end.

Definition without_nul (t : list Z) : list Z := filter (fun c => negb (c =? 0)) t.

(** What should be read back: NUL characters removed, adjacent character data
    merged, empty character data dropped. *)
Fixpoint read_back (acc : list Z) (es : list xevent) : list xevent :=
  match es with
  | [] => flush acc []
  | XText t :: r => read_back (acc ++ without_nul t) r
  | XStart n attrs :: r => flush acc (XStart n (map (fun kv => (fst kv, without_nul (snd kv))) attrs) :: read_back [] r)
  | XEnd n :: r => flush acc (XEnd n :: read_back [] r)
  end.

(** UTF-8 (RFC 3629): decoding of well-formed byte sequences. *)
Definition cont (b : Z) : bool := (0x80 <=? b) && (b <? 0xc0).
Fixpoint utf8_decode (b : list Z) : option (list Z) :=
  match b with
  | [] => Some []
  | b0 :: r0 =>
      if b0 <? 0x80 then option_map (cons b0) (utf8_decode r0)
      else if b0 <? 0xc2 then None
      else match r0 with
      | [] => None
      | b1 :: r1 =>
          if negb (cont b1) then None
          else if b0 <? 0xe0 then option_map (cons ((b0 - 0xc0) * 64 + (b1 - 0x80))) (utf8_decode r1)
          else match r1 with
          | [] => None
          | b2 :: r2 =>
              if negb (cont b2) then None
              else if b0 <? 0xf0 then
                let c := (b0 - 0xe0) * 4096 + (b1 - 0x80) * 64 + (b2 - 0x80) in
                if (c <? 0x800) || ((0xd800 <=? c) && (c <? 0xe000)) then None
                else option_map (cons c) (utf8_decode r2)
              else match r2 with
              | [] => None
              | b3 :: r3 =>
                  if negb (cont b3) then None
                  else
                    let c := (b0 - 0xf0) * 262144 + (b1 - 0x80) * 4096 + (b2 - 0x80) * 64 + (b3 - 0x80) in
                    if (c <? 0x10000) || (0x110000 <=? c) then None
                    else option_map (cons c) (utf8_decode r3)
              end
          end
      end
  end.
