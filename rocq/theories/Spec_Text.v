(** Specification of UTF-16 text. *)
From Coq Require Import ZArith List Bool.
From Verif Require Import Base.
Import ListNotations.
Open Scope Z_scope.

(** A Unicode scalar value. *)
Definition scalar (c : Z) : Prop := 0 <= c < 0xD800 \/ 0xE000 <= c < 0x110000.

(** UTF-16 code units of a code point (Unicode standard, table 3-5). *)
Definition utf16_units_of (c : Z) : list Z :=
  if c <? 0x10000 then [c]
  else [0xD800 + (c - 0x10000) / 0x400; 0xDC00 + (c - 0x10000) mod 0x400].

Definition utf16_units (cs : list Z) : list Z := concat (map utf16_units_of cs).

Definition le16 (u : Z) : list Z := [u mod 256; u / 256].

Definition utf16le_bytes (cs : list Z) : list Z := concat (map le16 (utf16_units cs)).
