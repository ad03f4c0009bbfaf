(** Numbers in the records of files, for lengths of documents. *)
From Coq Require Import ZArith String List.
From Verif Require Import Base Model_Record Model_Bintype Model_Models.
Import ListNotations.
Open Scope string_scope.
Open Scope Z_scope.

(** The number of this name in a record, of so many bits *)
Definition number_in (bits : Z) (key : string) (rm : record * model) (n : Z) : Prop :=
  In (key, VInt n) (m_content (snd rm)) /\ - 2 ^ bits < n < 2 ^ bits.

(** Numbers of four bytes, the last the highest, without and with sign *)
Definition word4 (b0 b1 b2 b3 : Z) : Z := b0 + 256 * (b1 + 256 * (b2 + 256 * b3)).
Definition signed4 (b0 b1 b2 b3 : Z) : Z := if b3 <? 128 then word4 b0 b1 b2 b3 else word4 b0 b1 b2 b3 - 2 ^ 32.
(** The number at place [k] of numbers of four bytes *)
Definition word_at (k : nat) (payload : list Z) : Z := word4 (nth (4 * k) payload 0) (nth (4 * k + 1) payload 0) (nth (4 * k + 2) payload 0) (nth (4 * k + 3) payload 0).
Definition signed_at (k : nat) (payload : list Z) : Z := signed4 (nth (4 * k) payload 0) (nth (4 * k + 1) payload 0) (nth (4 * k + 2) payload 0) (nth (4 * k + 3) payload 0).
(** Pages: width, height and the spaces, then bits, the lowest of them for the
    orientation.  Paragraph shapes: bits, the lowest two for the kind of line
    spacing; then margins, indent and line spacing. *)
Definition page_numbers : list (nat * string) :=
  [(0%nat, "width"); (1%nat, "height"); (2%nat, "left_offset"); (3%nat, "right_offset"); (4%nat, "top_offset"); (5%nat, "bottom_offset"); (6%nat, "header_offset"); (7%nat, "footer_offset")].
Definition shape_numbers : list (nat * string) :=
  [(1%nat, "doubled_margin_left"); (2%nat, "doubled_margin_right"); (3%nat, "indent"); (4%nat, "doubled_margin_top"); (5%nat, "doubled_margin_bottom"); (6%nat, "linespacing")].
Definition orientations : list string := ["PORTRAIT"; "LANDSCAPE"].
Definition spacings : list string := ["RATIO"; "FIXED"; "SPACEONLY"; "MINIMUM"].
