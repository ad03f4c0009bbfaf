(** Property theorems about paragraph text: C21, C22. *)
From Coq Require Import ZArith List Bool Lia.
From Verif Require Import Base Model_Text Model_Dataio Model_ParaText Spec_Text Spec_Dataio
  Spec_ParaText Proof_ParaText.
Import ListNotations.
Open Scope Z_scope.

(** C21.  The chunks tile the text from 0, each describes its code units, and
    when parsing finishes they cover the text (a control at the very end may be
    cut, then its range reaches past the end by at most 5 units). *)
Theorem C21_chunks_tile_and_describe : forall data out o, all_bytes data -> parse_chunks data = (out, o) ->
  exists q, tiled 0 (map fst out) q /\
    Forall (fun x => chunk_describes data (fst (fst x)) (snd (fst x)) (snd x)) out /\
    (o = Finished -> zlen data <= 2 * q <= zlen data + 10).
Proof. exact chunks_tile_and_describe. Qed.
Print Assumptions C21_chunks_tile_and_describe.

Theorem C21_texts_maximal : forall data out o, all_bytes data -> parse_chunks data = (out, o) ->
  no_adjacent_texts out.
Proof. exact parse_chunks_texts_maximal. Qed.
Print Assumptions C21_texts_maximal.

(** Whatever paragraph content is written comes back. *)
Theorem C21_roundtrip : forall cs, Forall pchunk_ok cs -> no_adjacent_ptexts cs ->
  all_bytes (concat (map pchunk_bytes cs)) ->
  parse_chunks (concat (map pchunk_bytes cs)) = (place 0 cs, Finished).
Proof. exact chunks_roundtrip. Qed.
Print Assumptions C21_roundtrip.

(** The full description of parsing, for every byte string. *)
Theorem C21_parse_is_specified : forall data out o, all_bytes data ->
  parse_chunks data = (out, o) <-> para_text 0 data out o.
Proof. exact parse_chunks_spec. Qed.
Print Assumptions C21_parse_is_specified.

(** What every control character is: its group (an undefined code has none) and
    its name. *)
Theorem C21_control_table : forall c, 0 <= c < 32 ->
  control_kind c = match control_group c with Some k => Ok k | None => Raise KeyError end /\
  get_name_by_code c = zs (control_name c).
Proof. intros c H. split; [apply control_kinds|apply control_names, H]. Qed.
Print Assumptions C21_control_table.

Example C21_case :
  let cs := [PText [0x41; 0x1F600; 0xAC00]; PTab 4000 1 2 [3; 4; 5; 6; 7; 8] [9; 0];
             PText [0x42]; PObj 11 [0x67; 0x73; 0x6f; 0x20] [0; 0; 0; 0; 0; 0; 0; 0] [11; 0]; PChar 13] in
  Forall pchunk_ok cs /\ no_adjacent_ptexts cs /\
  parse_chunks (concat (map pchunk_bytes cs)) =
  ([((0, 4), ChText [0x41; 0x1F600; 0xAC00]); ((4, 12), ChCtl (CtlTab 9 4000 1 2 [3; 4; 5; 6; 7; 8]));
    ((12, 13), ChText [0x42]); ((13, 21), ChCtl (CtlObj 11 [0x67; 0x73; 0x6f; 0x20] [0; 0; 0; 0; 0; 0; 0; 0]));
    ((21, 22), ChCtl (CtlChar 13))], Finished).
Proof.
  cbv zeta. split; [|split; [cbn; tauto|vm_compute; reflexivity]].
  repeat constructor; try discriminate; unfold is_byte, eight_unit_control, one_unit_control, undefined_control; cbn [In]; try reflexivity; lia.
Qed.

(** C22.  Parsing always ends in one of these ways (never out of fuel, that is,
    it terminates) ... *)
Theorem C22_outcomes : forall data, all_bytes data ->
  In (snd (parse_chunks data)) [Finished; Failed UnicodeDecodeError; Failed KeyError; Failed StructError; Failed IndexError].
Proof. exact parse_chunks_outcomes. Qed.
Print Assumptions C22_outcomes.

(** ... and when it fails, the unread rest begins with an undefined control
    (possibly behind a text run), an invalid text run, or a cut control. *)
Theorem C22_failures_located : forall data out e, all_bytes data -> parse_chunks data = (out, Failed e) ->
  exists done_ left q, data = done_ ++ left /\ zlen done_ = 2 * q /\ tiled 0 (map fst out) q /\ stops_because left e.
Proof. exact parse_chunks_failure. Qed.
Print Assumptions C22_failures_located.

Example C22_case :
  parse_chunks [0x41; 0; 0x1a; 0] = ([], Failed KeyError) /\
  parse_chunks [0x0d; 0; 0x41; 0; 0x00; 0xd8] = ([((0, 1), ChCtl (CtlChar 13))], Failed UnicodeDecodeError) /\
  parse_chunks [0x09; 0; 1; 2; 3; 4; 5] = ([], Failed StructError) /\
  parse_chunks [0x02; 0; 1; 2; 3] = ([], Failed IndexError) /\
  parse_chunks [0x02; 0; 1; 2; 3; 4; 5] = ([((0, 8), ChCtl (CtlObj 2 [4; 3; 2; 1] [5]))], Finished).
Proof. vm_compute. repeat split. Qed.
