(** C79: the events of record models. *)
From Coq Require Import ZArith String List Bool Lia.
From Verif Require Import Base Model_Record Model_Bintype Model_Layouts Model_Models Model_Events Spec_Record Spec_Bintype Spec_Models Spec_Events Proof_Events Proof_Events2.
Import ListNotations.
Open Scope string_scope.
Open Scope list_scope.
Open Scope Z_scope.

(** C79.  When the models of a stream can be read, the events of the stream are
    those the models were read with, record by record, and there is no error
    among them. *)
Theorem C79_models : forall fuel version rs o ms, o <> OutOfFuel -> Forall (fun r => all_bytes (r_payload r)) rs ->
  stream_models fuel version (rs, o) = (ms, Finished) ->
  stream_events fuel version (rs, o) = (concat (map block ms), Finished) /\ ~ has_error (concat (map block ms)).
Proof. intros fuel version rs o ms N B H. exact (stream_agrees fuel version rs o ms Finished N B H). Qed.
Print Assumptions C79_models.

(** And the other way round: events that end without an error are those of
    models. *)
Theorem C79_no_error : forall fuel version rs o l, o <> OutOfFuel -> Forall (fun r => all_bytes (r_payload r)) rs ->
  stream_events fuel version (rs, o) = (l, Finished) -> ~ has_error l ->
  exists ms, stream_models fuel version (rs, o) = (ms, Finished) /\ l = concat (map block ms).
Proof. exact events_clean. Qed.
Print Assumptions C79_no_error.

(** When the models cannot be read, the events begin with those of the models
    before the failure.  A ParseError is among the events of the next record,
    with its cause and place.  Any other exception ends the events, too. *)
Theorem C79_failure : forall fuel version rs o ms e, o <> OutOfFuel -> Forall (fun r => all_bytes (r_payload r)) rs ->
  stream_models fuel version (rs, o) = (ms, Failed e) ->
  fails_too rs ms e (fst (stream_events fuel version (rs, o))) (snd (stream_events fuel version (rs, o))).
Proof. intros fuel version rs o ms e N B H. exact (stream_agrees fuel version rs o ms (Failed e) N B H). Qed.
Print Assumptions C79_failure.

(** Whatever the members: the records come in order, each is closed with its own
    offset and leftover, which split its payload. *)
Theorem C79_complete : forall fuel version rs o l, o <> OutOfFuel -> stream_events fuel version (rs, o) = (l, Finished) -> o = Finished /\ complete rs l.
Proof. exact events_complete. Qed.
Print Assumptions C79_complete.
Theorem C79_broken : forall fuel version rs o, o <> OutOfFuel -> broken rs (fst (stream_events fuel version (rs, o))).
Proof. exact events_broken. Qed.
Print Assumptions C79_broken.

(** The events come to an end. *)
Theorem C79_ends : forall version rs o, o <> OutOfFuel -> Forall (fun r => all_bytes (r_payload r)) rs ->
  exists fuel l o', o' <> OutOfFuel /\ forall more, stream_events (fuel + more) version (rs, o) = (l, o').
Proof. exact events_end. Qed.
Print Assumptions C79_ends.

(** Face names: one with a text that is not one, one with a byte left over, one cut
    short. *)
Definition ev_rec (tagid : Z) (payload : list Z) : record := mkRecord tagid [] 0 (zlen payload) payload None.
Definition bad_face : record := ev_rec 19 [0; 1; 0; 0; 216].
Definition good_face : record := ev_rec 19 [0; 1; 0; 65; 0; 9].
Definition cut_face : record := ev_rec 19 [0; 1].
Definition version5 : list Z := [5; 0; 2; 4].
Definition shown (e : mev) : Z * Z :=
  match e with
  | MStart _ => (0, 0)
  | MEvent (OLeaf _ _ _ pos _) => (1, pos)
  | MEvent (OError _ _ _ pos _) => (2, pos)
  | MEvent _ => (3, 0)
  | MEnd _ offset _ => (4, offset)
  end.

(** The events do not end at a ParseError. *)
Theorem C79_ends_at_parse_error_refuted : exists fuel version rs ms e x p,
  stream_models fuel version (rs, Finished) = (ms, Failed e) /\ e = ParseError x p /\
  snd (stream_events fuel version (rs, Finished)) = Finished /\ List.length rs = 2%nat /\ ms = [].
Proof.
  exists 200%nat, version5, [bad_face; good_face], [], (ParseError UnicodeDecodeError 1), UnicodeDecodeError, 1. vm_compute. repeat split.
Qed.
Print Assumptions C79_ends_at_parse_error_refuted.

Example C79_case :
  (map shown (fst (stream_events 200 version5 ([good_face], Finished))) = [(0, 0); (3, 0); (1, 0); (1, 1); (3, 0); (4, 5)] /\
   last (fst (stream_events 200 version5 ([good_face], Finished))) (MStart good_face) = MEnd good_face 5 [9]) /\
  (map shown (fst (stream_events 200 version5 ([bad_face; good_face], Finished))) =
     [(0, 0); (3, 0); (1, 0); (2, 1); (3, 0); (4, 5); (0, 0); (3, 0); (1, 0); (1, 1); (3, 0); (4, 5)]) /\
  snd (stream_models 200 version5 ([good_face; cut_face; good_face], Finished)) = Failed (ParseError StructError 1) /\
  List.length (fst (stream_models 200 version5 ([good_face; cut_face; good_face], Finished))) = 1%nat /\
  map shown (fst (stream_events 200 version5 ([good_face; cut_face; good_face], Finished))) =
     [(0, 0); (3, 0); (1, 0); (1, 1); (3, 0); (4, 5); (0, 0); (3, 0); (1, 0); (2, 1); (3, 0); (4, 2); (0, 0); (3, 0); (1, 0); (1, 1); (3, 0); (4, 5)].
Proof. vm_compute. repeat split. Qed.
