(** Specification of the events of record models. *)
From Coq Require Import ZArith String List Bool.
From Verif Require Import Base Model_Record Model_Bintype Model_Layouts Model_Models Model_Events.
Import ListNotations.
Open Scope Z_scope.

(** The events of a record whose model is [m]: the record, the events the model
    was read with, and what its payload leaves over. *)
Definition block (rm : record * model) : list mev :=
  MStart (fst rm) :: map MEvent (m_binevents (snd rm)) ++
  [MEnd (fst rm) (zlen (r_payload (fst rm)) - zlen (m_unparsed (snd rm))) (m_unparsed (snd rm))].

(** Complete events of records: each record is opened, has events of its own,
    and is closed with the offset and the bytes of its payload that are left. *)
Inductive complete : list record -> list mev -> Prop :=
| co_none : complete [] []
| co_record : forall r evs used left rs l, r_payload r = used ++ left -> complete rs l ->
    complete (r :: rs) (MStart r :: map MEvent evs ++ MEnd r (zlen used) left :: l).
(** Events that stop at a record or in one. *)
Definition broken (rs : list record) (l : list mev) : Prop :=
  exists done rest before, rs = done ++ rest /\ complete done before /\
    (l = before \/ exists r rest' inner, rest = r :: rest' /\ l = before ++ MStart r :: map MEvent inner).

Definition is_error (e : oev node) : bool := match e with OError _ _ _ _ _ => true | _ => false end.
Definition has_error (l : list mev) : Prop := exists e, In (MEvent e) l /\ is_error e = true.

(** A ParseError is reported as such, with its cause and its place. *)
Definition reports (e : exn) (evs : list (oev node)) : Prop :=
  match e with ParseError x p => exists n t, In (OError node n t p x) evs | _ => True end.
Definition parsing (e : exn) : Prop := exists x p, e = ParseError x p.
Definition blocks (ms : list (record * model)) : list mev := concat (map block ms).
(** The events [l] when the models [ms] fail with [e]. *)
Definition fails_too (records : list record) (ms : list (record * model)) (e : exn) (l : list mev) (o : outcome) : Prop :=
  (l = blocks ms /\ o = Failed e) \/
  exists r rest inner more, records = map fst ms ++ r :: rest /\ l = blocks ms ++ MStart r :: map MEvent inner ++ more /\ reports e inner /\
    (~ parsing e -> more = [] /\ o = Failed e).
