(** Specification of the HWP5 file structure: header layout, layers, section
    order.  Uses only the item observations of Model_Storage. *)
From Coq Require Import ZArith String List Bool Sorted Permutation.
From Verif Require Import Base Model_Storage Spec_Dataio.
Import ListNotations.
Open Scope string_scope.
Open Scope list_scope.
Open Scope Z_scope.

(** ** The file header *)

(** "HWP Document File" and fifteen zero bytes. *)
Definition magic : list Z :=
  [72; 87; 80; 32; 68; 111; 99; 117; 109; 101; 110; 116; 32; 70; 105; 108; 101;
   0; 0; 0; 0; 0; 0; 0; 0; 0; 0; 0; 0; 0; 0; 0].

(** 32 bytes of signature, the version with its last part first, a 32 bit
    number of flags, and the rest. *)
Definition header_bytes (sig : list Z) (v1 v2 v3 v4 : Z) (flags : Z) (rest : list Z) : list Z :=
  sig ++ [v4; v3; v2; v1] ++ number_bytes 4 flags ++ rest.

(** The storage [x] has a file header with these flags. *)
Definition has_header (x : item) (flags : Z) : Prop :=
  exists y v1 v2 v3 v4 rest, get x (zs "FileHeader") = Ok y /\ is_stream y = true /\
    open y = Ok (header_bytes magic v1 v2 v3 v4 flags rest) /\ 0 <= flags < 2 ^ 32 /\ rest <> [].

Definition compressed (flags : Z) : bool := Z.testbit flags 0.
Definition protected (flags : Z) : bool := Z.testbit flags 1.
Definition distributed (flags : Z) : bool := Z.testbit flags 2.

(** Decimal numerals without leading zero. *)
Inductive numeral : list Z -> Z -> Prop :=
| num_digit : forall d, 0 <= d <= 9 -> numeral [48 + d] d
| num_more : forall l n d, numeral l n -> 0 < n -> 0 <= d <= 9 -> numeral (l ++ [48 + d]) (10 * n + d).

(** "key: value" lines of the text form, in alphabetical order. *)
Definition bit_line (key : string) (flags : Z) (bit : Z) : list Z :=
  zs key ++ [58; 32; if Z.testbit flags bit then 49 else 48; 10].
Definition header_lines (flags : Z) (version : list Z) : list Z :=
  bit_line "ccl" flags 11 ++ bit_line "cert_drm" flags 10 ++ bit_line "cert_encrypted" flags 8 ++
  bit_line "cert_signature_extra" flags 9 ++ bit_line "cert_signed" flags 7 ++ bit_line "compressed" flags 0 ++
  bit_line "distributable" flags 2 ++ bit_line "drm" flags 4 ++ bit_line "history" flags 6 ++
  bit_line "password" flags 1 ++ bit_line "script" flags 3 ++
  zs "signature: HWP Document File" ++ [10] ++ zs "version: " ++ version ++ [10] ++
  bit_line "xmltemplate_storage" flags 5.

(** ** Layers *)

Inductive stage := Decrypt | Inflate.

(** What is done to the streams directly inside a storage of the root, and to
    the streams of the root, by name and flags. *)
Definition one_of (n : name) (l : list string) : Prop := In n (map zs l).
Inductive inner_stages (flags : Z) (n : name) : list stage -> Prop :=
| inner_protected : protected flags = true -> inner_stages flags n []
| inner_plain : protected flags = false -> one_of n ["BodyText"; "BinData"] ->
    inner_stages flags n (if compressed flags then [Inflate] else [])
| inner_distributed : protected flags = false -> one_of n ["ViewText"; "Scripts"] ->
    inner_stages flags n ((if distributed flags then [Decrypt] else []) ++ (if compressed flags then [Inflate] else []))
| inner_other : ~ one_of n ["BodyText"; "BinData"; "ViewText"; "Scripts"] -> inner_stages flags n [].
Inductive root_stages (flags : Z) (n : name) : list stage -> Prop :=
| root_protected : protected flags = true -> root_stages flags n []
| root_docinfo : protected flags = false -> n = zs "DocInfo" -> root_stages flags n (if compressed flags then [Inflate] else [])
| root_other : n <> zs "DocInfo" -> root_stages flags n [].

Section Stages.
  Variable inflate : list Z -> option (list Z).
  Variable decrypt : list Z -> res (list Z).
  (** What does not inflate is delivered as it is. *)
  Definition inflated (b : list Z) : list Z := match inflate b with Some d => d | None => b end.
  Fixpoint delivered (l : list stage) (r : res (list Z)) : res (list Z) :=
    match l, r with
    | [], _ => r
    | _, Raise e => Raise e
    | Decrypt :: t, Ok b => delivered t (decrypt b)
    | Inflate :: t, Ok b => delivered t (Ok (inflated b))
    end.
End Stages.

(** ** Section numbers *)

(** What Python's int() reads: blanks, a sign, digits with single underscores
    between them, blanks. *)
Definition blank (c : Z) : Prop := 9 <= c <= 13 \/ 28 <= c <= 32.
Inductive digits_value : list Z -> Z -> Prop :=
| dv_one : forall d, 0 <= d <= 9 -> digits_value [48 + d] d
| dv_digit : forall l n d, digits_value l n -> 0 <= d <= 9 -> digits_value (l ++ [48 + d]) (10 * n + d)
| dv_under : forall l n d, digits_value l n -> 0 <= d <= 9 -> digits_value (l ++ [95; 48 + d]) (10 * n + d).
Inductive int_text : list Z -> Z -> Prop :=
| it_intro : forall before sign l n after v, Forall blank before -> Forall blank after -> digits_value l n ->
    (sign = [] /\ v = n \/ sign = [43] /\ v = n \/ sign = [45] /\ v = - n) ->
    int_text (before ++ sign ++ l ++ after) v.

(** Names of sections, and their numbers. *)
Inductive section_numbers : list name -> list Z -> Prop :=
| sn_nil : section_numbers [] []
| sn_section : forall t i r l, int_text t i -> section_numbers r l -> section_numbers ((zs "Section" ++ t) :: r) (i :: l)
| sn_other : forall n r l, (forall t i, int_text t i -> n <> zs "Section" ++ t) -> section_numbers r l -> section_numbers (n :: r) l.

(** ** Decompression in pieces *)

(** A decompressor fed in pieces: [feed] gives the output of a piece and the
    next state, or fails; [flush] gives what is left.  Feeding two pieces is
    feeding their concatenation, and nothing comes of nothing. *)
Record incremental {St : Type} (feed : St -> list Z -> option (list Z * St)) : Prop := {
  feed_nothing : forall s, feed s [] = Some ([], s);
  feed_pieces : forall s a b, feed s (a ++ b) =
    match feed s a with
    | None => None
    | Some (o1, s1) => match feed s1 b with None => None | Some (o2, s2) => Some (o1 ++ o2, s2) end
    end }.

(** What is reported about a file header of fewer than 41 bytes. *)
Inductive short_header : Z -> exn -> Prop :=
| sh_sign : forall n, 0 <= n <= 32 -> short_header n (ParseError (Eof n) n)
| sh_version : forall n, 33 <= n <= 35 -> short_header n (ParseError IndexError 32)
| sh_flags : forall n, 36 <= n <= 39 -> short_header n KeyError
| sh_reserved : short_header 40 (ParseError (Eof 40) 40).

(** Every whole piece of [size] bytes, when more follows, yields something. *)
Definition productive {St : Type} (feed : St -> list Z -> option (list Z * St)) (start : St) (size : Z) (b : list Z) : Prop :=
  forall a c r o1 s1 s2, b = a ++ c ++ r -> zlen c = size -> r <> [] -> (size | zlen a) ->
    feed start a = Some (o1, s1) -> feed s1 c <> Some ([], s2).
