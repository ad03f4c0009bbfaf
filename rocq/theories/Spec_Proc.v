(** Specification of what the commands print: what their arguments mean, and
    what the lines say. *)
From Coq Require Import ZArith String List Bool.
From Verif Require Import Base Model_Text Model_Record Model_Models Model_Storage Model_Proc Spec_Record Spec_Filestructure.
Import ListNotations.
Open Scope Z_scope.

(** A number that can count items: not negative, at most sys.maxsize. *)
Definition countable (n : Z) : Prop := 0 <= n < 9223372036854775808.

(** N means the record N, N-M the records from N to M-1. *)
Inductive range_says : list Z -> Z -> Z -> Prop :=
| rg_one : forall t n, ~ In 45 t -> int_text t n -> range_says t n (n + 1)
| rg_two : forall x y a b, ~ In 45 x -> int_text x a -> int_text y b -> range_says (x ++ 45 :: y) a b.

(** Numbers with dots between them. *)
Inductive version_says : list Z -> list Z -> Prop :=
| vs_last : forall t n, int_text t n -> version_says t [n]
| vs_more : forall t n r l, int_text t n -> version_says r l -> version_says (t ++ 46 :: r) (n :: l).

(** ** Lines *)

Definition unlines (ls : list (list Z)) : list Z := concat (map (fun l => l ++ [10]) ls).

(** A number in at least four decimal digits, the first of more than four not
    being zero. *)
Definition digit_char (c : Z) : Prop := 48 <= c <= 57.
Definition decimal_value (l : list Z) : Z := fold_left (fun a c => 10 * a + (c - 48)) l 0.
Definition number4 (l : list Z) (n : Z) : Prop :=
  Forall digit_char l /\ decimal_value l = n /\ (List.length l = 4%nat \/ (4 < List.length l)%nat /\ hd 48 l <> 48).

(** A number, that many blanks, and a name that does not begin with one. *)
Definition line_says (l : list Z) (n : Z) (blanks : Z) (name : list Z) : Prop :=
  exists ds, number4 ds n /\ 0 < blanks /\ hd 0 name <> 32 /\ ~ In 10 name /\ l = ds ++ repeat 32 (Z.to_nat blanks) ++ name.

(** The line of a record: two blanks for every level, and two more. *)
Definition record_line (r : record) (l : list Z) : Prop :=
  exists n, r_seqno r = Some n /\ line_says l n (2 * r_level r + 2) (r_tagname r).
(** The line of a model: a blank for every level, and one more. *)
Definition model_line (rm : record * model) (l : list Z) : Prop :=
  exists n, r_seqno (fst rm) = Some n /\ line_says l n (r_level (fst rm) + 1) (zs (m_type (snd rm))).

(** What is kept of a record. *)
Definition raw_of (r : record) : raw_record := (r_tagid r, r_level r, r_payload r).

(** ** Finding *)

Definition has_tag (t : list Z) (r : record) : Prop :=
  (exists n, int_text t n /\ r_tagid r = n) \/ ((forall n, ~ int_text t n) /\ r_tagname r = t).

(** [picked P xs ys]: [ys] are the items of [xs] with [P], in order. *)
Inductive picked {A} (P : A -> Prop) : list A -> list A -> Prop :=
| pk_nil : picked P [] []
| pk_take : forall x xs ys, P x -> picked P xs ys -> picked P (x :: xs) (x :: ys)
| pk_skip : forall x xs ys, ~ P x -> picked P xs ys -> picked P (x :: xs) ys.

(** Which models are asked for: by the name of their type or by tag, and only
    those with bytes left over if [incomplete]. *)
Definition wanted (f : find_filter) (incomplete : bool) (rm : record * model) : Prop :=
  match f with
  | AnyModel => True
  | WithModel t => t = [] \/ zs (m_type (snd rm)) = t
  | WithTag t => t = [] \/ has_tag t (fst rm)
  end /\ (incomplete = true -> m_unparsed (snd rm) <> []).

(** The models of streams one after another, until one of them fails. *)
Inductive in_turn {A} : list (name * gen A) -> list (name * A) -> outcome -> Prop :=
| it_end : in_turn [] [] Finished
| it_next : forall label xs r ys o, in_turn r ys o -> in_turn ((label, (xs, Finished)) :: r) (map (pair label) xs ++ ys) o
| it_stop : forall label xs o r, o <> Finished -> in_turn ((label, (xs, o)) :: r) (map (pair label) xs) o.

(** The streams of a file: DocInfo, and every item of BodyText in the order of
    the storage.  What cannot be had fails. *)
Definition stream_of {A} (models : item -> gen A) (r : res item) (g : gen A) : Prop :=
  (exists y, r = Ok y /\ g = models y) \/ (exists e, r = Raise e /\ g = ([], Failed e)).
Inductive streams_of {A} (models : item -> gen A) (h : item) : list (name * gen A) -> Prop :=
| so_file : forall d t names o gs, stream_of models (get h (zs "DocInfo")) d -> get h (zs "BodyText") = Ok t -> iter t = (names, o) ->
    Forall2 (fun n g => fst g = zs "BodyText/" ++ n /\ stream_of models (get t n) (snd g)) names gs ->
    streams_of models h ((zs "DocInfo", d) :: gs ++ match o with Finished => [] | _ => [([], ([], o))] end)
| so_no_text : forall d e, stream_of models (get h (zs "DocInfo")) d -> get h (zs "BodyText") = Raise e ->
    streams_of models h [(zs "DocInfo", d); ([], ([], Failed e))].

(** The line of a model found. *)
Definition found_line (filename stream : name) (rm : record * model) (l : list Z) : Prop :=
  exists n t, r_seqno (fst rm) = Some n /\ numeral t n /\
    l = filename ++ [32] ++ stream ++ [32] ++ t ++ [32] ++ r_tagname (fst rm) ++ [32] ++ zs (m_type (snd rm)).

(** One file: its wanted models, in order. *)
Definition file_says {A} (models : list Z -> item -> gen A) (P : A -> Prop) (line : name -> A -> list Z -> Prop)
    (file : res (item * list Z)) (lines : list (list Z)) (o : outcome) : Prop :=
  match file with
  | Raise e => lines = [] /\ o = Failed e
  | Ok (h, version) => exists gs xs ys, streams_of (models version) h gs /\ in_turn gs xs o /\ picked (fun x => P (snd x)) xs ys /\
                         Forall2 (fun x l => line (fst x) (snd x) l) ys lines
  end.
(** All files: only a ParseError lets the search go on with the next one. *)
Inductive files_say {A} (models : list Z -> item -> gen A) (P : A -> Prop) (line : name -> name -> A -> list Z -> Prop) :
    list (name * res (item * list Z)) -> list (list Z) -> outcome -> Prop :=
| fs_none : files_say models P line [] [] Finished
| fs_next : forall fn f r ls ls' o o', file_says models P (line fn) f ls o -> (o = Finished \/ exists c p, o = Failed (ParseError c p)) ->
    files_say models P line r ls' o' -> files_say models P line ((fn, f) :: r) (ls ++ ls') o'
| fs_stop : forall fn f r ls o, file_says models P (line fn) f ls o -> o <> Finished -> (forall c p, o <> Failed (ParseError c p)) ->
    files_say models P line ((fn, f) :: r) ls o.
