(** Specification of generator readers and of JSON texts. *)
From Coq Require Import ZArith List Bool.
From Verif Require Import Base Model_Readers.
Import ListNotations.
Open Scope Z_scope.

(** What a reader still has to deliver. *)
Definition remaining (r : reader) : list Z := g_buffer r ++ concat (g_chunks r).

Definition positive_size (n : option Z) : Prop := match n with None => True | Some k => 0 < k end.

(** ** JSON texts (RFC 8259), as lists of characters *)

Definition json_ws (c : Z) : Prop := c = 32 \/ c = 9 \/ c = 10 \/ c = 13.
Definition digit (c : Z) : Prop := 48 <= c <= 57.
Definition hexdigit (c : Z) : Prop := digit c \/ 65 <= c <= 70 \/ 97 <= c <= 102.
Definition number_char (c : Z) : Prop := digit c \/ c = 43 \/ c = 45 \/ c = 46 \/ c = 69 \/ c = 101.

(** Characters of a string after the opening quote, up to the closing one. *)
Inductive json_string_rest : list Z -> Prop :=
| jstr_close : json_string_rest [34]
| jstr_plain : forall c s, 32 <= c -> c <> 34 -> c <> 92 -> json_string_rest s -> json_string_rest (c :: s)
| jstr_escape : forall c s, In c [34; 92; 47; 98; 102; 110; 114; 116] -> json_string_rest s -> json_string_rest (92 :: c :: s)
| jstr_unicode : forall a b c d s, hexdigit a -> hexdigit b -> hexdigit c -> hexdigit d ->
    json_string_rest s -> json_string_rest (92 :: 117 :: a :: b :: c :: d :: s).

(** [json_value v]: v is a JSON value without surrounding white space;
    [json_elements es s]: s is the inside of an array with element texts es;
    [json_members s]: s is the inside of an object. Numbers are given by
    their characters only, which admits a few more texts than RFC 8259. *)
Inductive json_value : list Z -> Prop :=
| jv_true : json_value [116; 114; 117; 101]
| jv_false : json_value [102; 97; 108; 115; 101]
| jv_null : json_value [110; 117; 108; 108]
| jv_number : forall s, s <> [] -> Forall number_char s -> json_value s
| jv_string : forall s, json_string_rest s -> json_value (34 :: s)
| jv_empty_array : forall w, Forall json_ws w -> json_value ([91] ++ w ++ [93])
| jv_array : forall es s, json_elements es s -> json_value ([91] ++ s ++ [93])
| jv_empty_object : forall w, Forall json_ws w -> json_value ([123] ++ w ++ [125])
| jv_object : forall s, json_members s -> json_value ([123] ++ s ++ [125])
with json_elements : list (list Z) -> list Z -> Prop :=
| je_last : forall w v w', Forall json_ws w -> json_value v -> Forall json_ws w' ->
    json_elements [v] (w ++ v ++ w')
| je_more : forall w v w' es s, Forall json_ws w -> json_value v -> Forall json_ws w' -> json_elements es s ->
    json_elements (v :: es) (w ++ v ++ w' ++ [44] ++ s)
with json_members : list Z -> Prop :=
| jm_last : forall w k w1 w2 v w3, Forall json_ws w -> json_string_rest k -> Forall json_ws w1 -> Forall json_ws w2 ->
    json_value v -> Forall json_ws w3 -> json_members (w ++ (34 :: k) ++ w1 ++ [58] ++ w2 ++ v ++ w3)
| jm_more : forall w k w1 w2 v w3 s, Forall json_ws w -> json_string_rest k -> Forall json_ws w1 -> Forall json_ws w2 ->
    json_value v -> Forall json_ws w3 -> json_members s ->
    json_members (w ++ (34 :: k) ++ w1 ++ [58] ++ w2 ++ v ++ w3 ++ [44] ++ s).

(** A document is a value with white space around it. *)
Definition json_text (t : list Z) : Prop :=
  exists w v w', t = w ++ v ++ w' /\ Forall json_ws w /\ json_value v /\ Forall json_ws w'.

(** [array_of es t]: t is an array document with exactly the elements es. *)
Definition array_of (es : list (list Z)) (t : list Z) : Prop :=
  exists s, json_elements es s /\ t = [91] ++ s ++ [93].
