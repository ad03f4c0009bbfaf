(** Specification of JSON documents (RFC 8259): which value a text stands for. *)
From Coq Require Import ZArith String List Bool Permutation Sorted.
From Verif Require Import Base Spec_Text Spec_Dataio Model_Record Model_ParaText Model_Bintype Model_Models.
Import ListNotations.
Open Scope Z_scope.

(** Numbers without fraction and exponent are integers, others are kept as
    written; strings and names are sequences of UTF-16 code units. *)
Inductive jvalue : Type :=
| JNull | JTrue | JFalse
| JN (n : Z)
| JR (t : list Z)
| JS (units : list Z)
| JA (l : list jvalue)
| JO (members : list (list Z * jvalue)).

Definition ws (c : Z) : bool := (c =? 32) || (c =? 9) || (c =? 10) || (c =? 13).
Fixpoint skip (s : list Z) : list Z :=
  match s with c :: r => if ws c then skip r else s | [] => [] end.

(** ** Strings *)

Definition hex_digit (c : Z) : option Z :=
  if (48 <=? c) && (c <=? 57) then Some (c - 48)
  else if (97 <=? c) && (c <=? 102) then Some (c - 87)
  else if (65 <=? c) && (c <=? 70) then Some (c - 55)
  else None.
Definition short_escapes : list (Z * Z) :=
  [(34, 34); (92, 92); (47, 47); (98, 8); (102, 12); (110, 10); (114, 13); (116, 9)].

(** [string_units s us rest]: s is the rest of a string, of code units us, and
    after its closing quote comes rest. *)
Inductive string_units : list Z -> list Z -> list Z -> Prop :=
| su_close : forall rest, string_units (34 :: rest) [] rest
| su_plain : forall c s us rest, 32 <= c -> c <> 34 -> c <> 92 -> string_units s us rest ->
    string_units (c :: s) (utf16_units_of c ++ us) rest
| su_short : forall e u s us rest, In (e, u) short_escapes -> string_units s us rest ->
    string_units (92 :: e :: s) (u :: us) rest
| su_hex : forall a b c d x y z w s us rest,
    hex_digit a = Some x -> hex_digit b = Some y -> hex_digit c = Some z -> hex_digit d = Some w ->
    string_units s us rest ->
    string_units (92 :: 117 :: a :: b :: c :: d :: s) (4096 * x + 256 * y + 16 * z + w :: us) rest.

(** ** Numbers *)

Definition is_dec (c : Z) : bool := (48 <=? c) && (c <=? 57).
Definition decimal (t : list Z) : Z := fold_left (fun n c => 10 * n + (c - 48)) t 0.

(** An integer: no superfluous leading zero. *)
Definition natural_text (t : list Z) : Prop :=
  t <> [] /\ forallb is_dec t = true /\ (hd 0 t = 48 -> t = [48]).
Inductive integer_text : list Z -> Z -> Prop :=
| it_natural : forall t, natural_text t -> integer_text t (decimal t)
| it_negative : forall t, natural_text t -> integer_text (45 :: t) (- decimal t).

(** Fraction and exponent. *)
Definition digits_text (t : list Z) : Prop := t <> [] /\ forallb is_dec t = true.
Inductive fraction_text : list Z -> Prop :=
| ft_none : fraction_text []
| ft_some : forall t, digits_text t -> fraction_text (46 :: t).
Inductive exponent_text : list Z -> Prop :=
| et_none : exponent_text []
| et_some : forall e sign t, e = 101 \/ e = 69 -> sign = [] \/ sign = [43] \/ sign = [45] -> digits_text t ->
    exponent_text (e :: sign ++ t).

Inductive number_says : list Z -> jvalue -> Prop :=
| ns_integer : forall t n, integer_text t n -> number_says t (JN n)
| ns_real : forall t n f e, integer_text t n -> fraction_text f -> exponent_text e -> f ++ e <> [] ->
    number_says (t ++ f ++ e) (JR (t ++ f ++ e)).

(** A number ends before the first character that cannot be part of one. *)
Definition number_char (c : Z) : bool :=
  is_dec c || (c =? 43) || (c =? 45) || (c =? 46) || (c =? 69) || (c =? 101).
Fixpoint number_span (s : list Z) : list Z * list Z :=
  match s with
  | c :: r => if number_char c then (c :: fst (number_span r), snd (number_span r)) else ([], s)
  | [] => ([], [])
  end.

(** ** Values *)

(** [reads s v rest]: s starts with a text of the value v (no white space
    before it); after it comes rest.  [reads_items]: the inside of an array
    after its opening bracket; [reads_members]: that of an object. *)
Inductive reads : list Z -> jvalue -> list Z -> Prop :=
| rd_null : forall rest, reads (zs "null" ++ rest) JNull rest
| rd_true : forall rest, reads (zs "true" ++ rest) JTrue rest
| rd_false : forall rest, reads (zs "false" ++ rest) JFalse rest
| rd_number : forall s v, number_says (fst (number_span s)) v -> reads s v (snd (number_span s))
| rd_string : forall s us rest, string_units s us rest -> reads (34 :: s) (JS us) rest
| rd_empty_array : forall s rest, skip s = 93 :: rest -> reads (91 :: s) (JA []) rest
| rd_array : forall s vs rest, reads_items s vs rest -> reads (91 :: s) (JA vs) rest
| rd_empty_object : forall s rest, skip s = 125 :: rest -> reads (123 :: s) (JO []) rest
| rd_object : forall s ms rest, reads_members s ms rest -> reads (123 :: s) (JO ms) rest
with reads_items : list Z -> list jvalue -> list Z -> Prop :=
| ri_last : forall s v r rest, reads (skip s) v r -> skip r = 93 :: rest -> reads_items s [v] rest
| ri_more : forall s v r r' vs rest, reads (skip s) v r -> skip r = 44 :: r' -> reads_items r' vs rest ->
    reads_items s (v :: vs) rest
with reads_members : list Z -> list (list Z * jvalue) -> list Z -> Prop :=
| rm_last : forall s k s1 us s2 s3 v r rest,
    skip s = 34 :: k -> string_units k us s1 -> skip s1 = 58 :: s2 -> s3 = skip s2 -> reads s3 v r ->
    skip r = 125 :: rest -> reads_members s [(us, v)] rest
| rm_more : forall s k s1 us s2 s3 v r r' ms rest,
    skip s = 34 :: k -> string_units k us s1 -> skip s1 = 58 :: s2 -> s3 = skip s2 -> reads s3 v r ->
    skip r = 44 :: r' -> reads_members r' ms rest -> reads_members s ((us, v) :: ms) rest.

(** A JSON text: one value with white space around it. *)
Definition is_json (s : list Z) (v : jvalue) : Prop :=
  exists rest, reads (skip s) v rest /\ skip rest = [].

(** ** The JSON values of Python values *)

(** Names in ascending order, none of them twice. *)
Fixpoint before (a b : list Z) : Prop :=
  match a, b with
  | _, [] => False
  | [], _ :: _ => True
  | x :: a', y :: b' => x < y \/ (x = y /\ before a' b')
  end.
Definition ascending (names : list (list Z)) : Prop := StronglySorted before names.

(** A dump of bytes: lines of hexadecimal bytes. *)
Definition dump_says (b : list Z) (v : jvalue) : Prop :=
  exists lines chunks, v = JA (map JS lines) /\ map parse_hex_line lines = map Some chunks /\ concat chunks = b.

Section Says.
  (** The text of a finite floating point number. *)
  Variable float_text : Z -> list Z.

  Definition finite (bits : Z) : Prop := (bits / 2 ^ 52) mod 2 ^ 11 <> 2047.

  Inductive control_says : control -> list (string * jvalue) -> Prop :=
  | cs_char : forall code, control_says (CtlChar code) [("code"%string, JN code)]
  | cs_object : forall code chid param,
      control_says (CtlObj code chid param) [("chid"%string, JS chid); ("code"%string, JN code); ("param"%string, JS param)]
  | cs_tab : forall code width u0 u1 u2,
      control_says (CtlTab code width u0 u1 u2)
        [("code"%string, JN code);
         ("param"%string, JO [(zs "unknown0", JN u0); (zs "unknown1", JN u1); (zs "unknown2", JS u2); (zs "width", JN width)])].
  Inductive chunk_says : (Z * Z) * chunk -> jvalue -> Prop :=
  | ks_text : forall a b t, chunk_says ((a, b), ChText t) (JA [JA [JN a; JN b]; JS (utf16_units t)])
  | ks_control : forall a b c ms, control_says c ms ->
      chunk_says ((a, b), ChCtl c) (JA [JA [JN a; JN b]; JO (map (fun kv => (zs (fst kv), snd kv)) ms)]).

  (** [says v j]: j is the JSON value of v. *)
  Inductive says : value -> jvalue -> Prop :=
  | sy_int : forall n, says (VInt n) (JN n)
  | sy_flags : forall groups n, says (VFlags groups n) (JN n)
  | sy_double : forall bits j, finite bits -> number_says (float_text bits) j -> says (VDouble bits) j
  | sy_text : forall t, says (VText t) (JS (utf16_units t))
  | sy_bytes : forall b, says (VBytes b) (JS b)
  | sy_chunks : forall l js, Forall2 chunk_says l js -> says (VChunks l) (JA js)
  | sy_tuple : forall l js, Forall2 says l js -> says (VTuple l) (JA js)
  | sy_list : forall l js, Forall2 says l js -> says (VList l) (JA js)
  | sy_dict : forall d d' ms, Permutation d d' ->
      Forall2 (fun kv m => fst m = zs (fst kv) /\ says (snd kv) (snd m)) d' ms ->
      ascending (map fst ms) -> says (VDict d) (JO ms).

  (** All numbers in a value are finite. *)
  Inductive all_finite : value -> Prop :=
  | af_int : forall n, all_finite (VInt n)
  | af_flags : forall groups n, all_finite (VFlags groups n)
  | af_double : forall bits, finite bits -> all_finite (VDouble bits)
  | af_text : forall t, all_finite (VText t)
  | af_bytes : forall b, all_finite (VBytes b)
  | af_chunks : forall l, all_finite (VChunks l)
  | af_tuple : forall l, Forall all_finite l -> all_finite (VTuple l)
  | af_list : forall l, Forall all_finite l -> all_finite (VList l)
  | af_dict : forall d, Forall (fun kv => all_finite (snd kv)) d -> all_finite (VDict d).

  (** The JSON object of a record, and that of a model. *)
  Definition record_says (r : record) (n : Z) (j : jvalue) : Prop :=
    exists payload, dump_says (r_payload r) payload /\
      j = JO [(zs "level", JN (r_level r)); (zs "payload", payload); (zs "seqno", JN n);
              (zs "size", JN (r_size r)); (zs "tagid", JN (r_tagid r)); (zs "tagname", JS (r_tagname r))].

  Definition model_says (rm : record * model) (n : Z) (j : jvalue) : Prop :=
    let (r, m) := rm in
    exists payload content unparsed,
      dump_says (r_payload r) payload /\ says (VDict (m_content m)) content /\
      ((m_unparsed m = [] /\ unparsed = []) \/
       (m_unparsed m <> [] /\ exists d, dump_says (m_unparsed m) d /\ unparsed = [(zs "unparsed", d)])) /\
      j = JO ([(zs "content", content); (zs "level", JN (r_level r)); (zs "payload", payload); (zs "seqno", JN n);
               (zs "size", JN (r_size r)); (zs "tagid", JN (r_tagid r)); (zs "tagname", JS (r_tagname r));
               (zs "type", JS (zs (m_type m)))] ++ unparsed).
End Says.
