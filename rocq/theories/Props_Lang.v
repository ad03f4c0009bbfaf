(** Property theorems about language tokenization: C26. *)
From Coq Require Import ZArith String List Bool Lia.
From Verif Require Import Base Model_Lang Spec_Lang Proof_Lang.
Import ListNotations.
Open Scope string_scope.
Open Scope Z_scope.

(** C26.  The language of a character is that of its Unicode block. *)
Theorem C26_language_of_character : forall u, 0 <= u -> get_unichr_lang u = language u.
Proof. exact lang_is_language. Qed.
Print Assumptions C26_language_of_character.

(** The tokens are a tokenization of the text: they concatenate to it, language
    characters have the token's language, neighbours differ, every token but the
    first begins with a character of its language, and a text without language
    characters is one Korean token. *)
Theorem C26_tokenization : forall text, Forall (fun u => 0 <= u) text -> tokens_of text (tokenize_unicode_by_lang text).
Proof. exact tokenize_tokens. Qed.
Print Assumptions C26_tokenization.

(** There is only one. *)
Theorem C26_tokenization_unique : forall text toks, Forall (fun u => 0 <= u) text -> tokens_of text toks ->
  tokenize_unicode_by_lang text = toks.
Proof. exact tokens_determined. Qed.
Print Assumptions C26_tokenization_unique.

Example C26_case :
  tokenize_unicode_by_lang [0x31; 0x20; 0x41; 0x62; 0x20; 0xAC00; 0x2E; 0x4E00; 0x3042; 0x3001; 0x1F600] =
  [("en", [0x31; 0x20; 0x41; 0x62; 0x20]); ("ko", [0xAC00; 0x2E]); ("cn", [0x4E00]); ("jp", [0x3042]);
   ("symbol", [0x3001]); ("other", [0x1F600])] /\
  tokenize_unicode_by_lang [0x31; 0x40] = [("ko", [0x31; 0x40])] /\ tokenize_unicode_by_lang [] = [].
Proof. vm_compute. repeat split. Qed.
