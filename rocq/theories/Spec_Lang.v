(** Specification of language tokenization. *)
From Coq Require Import ZArith String List Bool.
From Verif Require Import Base.
Import ListNotations.
Open Scope string_scope.
Open Scope Z_scope.

(** The Unicode blocks, as the comments of the code name them: half-open
    intervals with a language; [None] is neutral. *)
Definition lang_blocks : list (Z * option string) :=
  [ (0x0000, None);            (* controls, space, digits, punctuation, '@' *)
    (0x0041, Some "en");       (* Basic Latin from 'A', Latin-1, Latin Extended-A/B *)
    (0x0250, Some "other");
    (0x1100, Some "ko");       (* Hangul Jamo *)
    (0x1200, Some "other");
    (0x2E80, Some "cn");       (* CJK Radicals Supplement, Kangxi Radicals *)
    (0x2FE0, Some "other");
    (0x3000, Some "symbol");   (* CJK Symbols and Punctuation *)
    (0x3040, Some "jp");       (* Hiragana, Katakana *)
    (0x3100, Some "other");
    (0x3130, Some "ko");       (* Hangul Compatibility Jamo *)
    (0x3190, Some "other");
    (0x3400, Some "cn");       (* CJK Extension A *)
    (0x4DC0, Some "other");
    (0x4E00, Some "cn");       (* CJK Unified Ideographs *)
    (0xA000, Some "other");
    (0xA960, Some "ko");       (* Hangul Jamo Extended-A *)
    (0xA980, Some "other");
    (0xAC00, Some "ko");       (* Hangul Syllables, Jamo Extended-B *)
    (0xD800, Some "other");
    (0xF900, Some "cn");       (* CJK Compatibility Ideographs *)
    (0xFB00, Some "other") ].

Fixpoint lookup_block {X} (d : X) (blocks : list (Z * X)) (u : Z) : X :=
  match blocks with
  | [] => d
  | (start, x) :: rest => if start <=? u then lookup_block x rest u else d
  end.

(** The language of a character, none if neutral. *)
Definition language (u : Z) : option string := lookup_block None lang_blocks u.

Definition neutral (u : Z) : Prop := language u = None.

(** Tokens of a text. *)
Definition token_pure (tok : string * list Z) : Prop :=
  Forall (fun u => neutral u \/ language u = Some (fst tok)) (snd tok).

(** A token begins with a character of its language. *)
Definition token_headed (tok : string * list Z) : Prop :=
  exists u rest, snd tok = u :: rest /\ language u = Some (fst tok).

Fixpoint langs_alternate (l : list (string * list Z)) : Prop :=
  match l with
  | a :: (b :: _) as rest => fst a <> fst b /\ langs_alternate rest
  | _ => True
  end.

(** The first token may begin with neutral characters; if it has a language
    character it has that language, and otherwise it is Korean. *)
Definition first_token (tok : string * list Z) : Prop :=
  snd tok <> [] /\ (Exists (fun u => language u = Some (fst tok)) (snd tok) \/ (fst tok = "ko" /\ Forall neutral (snd tok))).

Definition tokens_of (text : list Z) (toks : list (string * list Z)) : Prop :=
  concat (map snd toks) = text /\
  Forall token_pure toks /\
  langs_alternate toks /\
  match toks with
  | [] => True
  | first :: rest => first_token first /\ Forall token_headed rest /\ (rest <> [] -> Exists (fun u => ~ neutral u) (snd first))
  end.
