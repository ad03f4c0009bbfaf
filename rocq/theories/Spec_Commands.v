(** Specification of hwp5proc ls and hwp5proc diststream. *)
From Coq Require Import ZArith String List Bool.
From Verif Require Import Base Model_Storage Spec_Storage Spec_Distdoc.
Import ListNotations.
Open Scope Z_scope.

(** ** Listings *)

(** The order of texts by code points, and of paths by their names. *)
Inductive before {A} (lt : A -> A -> Prop) : list A -> list A -> Prop :=
| before_end : forall x r, before lt [] (x :: r)
| before_here : forall x y a b, lt x y -> before lt (x :: a) (y :: b)
| before_later : forall x a b, before lt a b -> before lt (x :: a) (x :: b).
Definition name_before : name -> name -> Prop := before Z.lt.
Definition path_before : list name -> list name -> Prop := before name_before.
Inductive ascending {A} (lt : A -> A -> Prop) : list A -> Prop :=
| asc_nil : ascending lt []
| asc_cons : forall x l, (forall y, In y l -> lt x y) -> ascending lt l -> ascending lt (x :: l).

(** The streams of a storage are streams: they can be opened. *)
Fixpoint streamed (x : item) (d : dir) : Prop :=
  match d with
  | DNil => True
  | DFile n _ r => (forall y, get x n = Ok y -> is_stream y = true) /\ streamed x r
  | DDir n s r => (forall y, get x n = Ok y -> streamed y s) /\ streamed x r
  end.

(** How a line is read back: [\\], [\t], [\n], [\r], [\xhh], [\uhhhh],
    [\Uhhhhhhhh], and any other character for itself. *)
Definition hex_digit_of (c : Z) : option Z :=
  if (48 <=? c) && (c <? 58) then Some (c - 48) else if (97 <=? c) && (c <? 103) then Some (c - 87) else None.
Fixpoint hex_number_of (acc : Z) (l : list Z) : option Z :=
  match l with [] => Some acc | c :: r => match hex_digit_of c with Some d => hex_number_of (16 * acc + d) r | None => None end end.
Inductive reads_back : list Z -> list Z -> Prop :=
| rb_end : reads_back [] []
| rb_char : forall c r t, c <> 92 -> reads_back r t -> reads_back (c :: r) (c :: t)
| rb_back : forall r t, reads_back r t -> reads_back (92 :: 92 :: r) (92 :: t)
| rb_t : forall r t, reads_back r t -> reads_back (92 :: 116 :: r) (9 :: t)
| rb_n : forall r t, reads_back r t -> reads_back (92 :: 110 :: r) (10 :: t)
| rb_r : forall r t, reads_back r t -> reads_back (92 :: 114 :: r) (13 :: t)
| rb_x : forall h v r t, zlen h = 2 -> hex_number_of 0 h = Some v -> reads_back r t -> reads_back (92 :: 120 :: h ++ r) (v :: t)
| rb_u : forall h v r t, zlen h = 4 -> hex_number_of 0 h = Some v -> reads_back r t -> reads_back (92 :: 117 :: h ++ r) (v :: t)
| rb_U : forall h v r t, zlen h = 8 -> hex_number_of 0 h = Some v -> reads_back r t -> reads_back (92 :: 85 :: h ++ r) (v :: t).
Definition code_text (t : list Z) : Prop := Forall (fun c => 0 <= c < 0x110000) t.
(** Printable ASCII. *)
Definition printable (l : list Z) : Prop := Forall (fun c => 32 <= c <= 126) l.
(** The listing of these paths: a line for each. *)
Inductive listing : list (list name) -> list (list Z) -> Prop :=
| ls_nil : listing [] []
| ls_cons : forall p ps l ls, printable l -> reads_back l (joined p) -> listing ps ls -> listing (p :: ps) ((l ++ [10]) :: ls).

(** ** Digests *)

(** Hexadecimal digits, in either case. *)
Inductive digit : Z -> Z -> Prop :=
| dg_decimal : forall d, 0 <= d <= 9 -> digit (48 + d) d
| dg_lower : forall d, 10 <= d <= 15 -> digit (87 + d) d
| dg_upper : forall d, 10 <= d <= 15 -> digit (55 + d) d.
(** Digits and the bytes they spell. *)
Inductive spells : list Z -> list Z -> Prop :=
| sp_nil : spells [] []
| sp_cons : forall a b x y t v, digit a x -> digit b y -> spells t v -> spells (a :: b :: t) (16 * x + y :: v).
Definition lower_case (c : Z) : Prop := 48 <= c <= 57 \/ 97 <= c <= 102.
(** ASCII characters in UTF-16LE. *)
Definition wide (t : list Z) : list Z := concat (map (fun c => [c; 0]) t).
(** The head of 256 bytes hides these eighty bytes: behind the seed and as many
    bytes as its last four bits say, xored with the key stream. *)
Definition hides (p w : list Z) : Prop :=
  all_bytes p /\ zlen p = 256 /\ zlen w = 80 /\
  forall i c j, znth i w = Some c -> in_run (seed_of p) j (4 + seed_of p mod 16 + i) ->
    znth (4 + seed_of p mod 16 + i) p = Some (Z.lxor c (run_key (seed_of p) j)).
