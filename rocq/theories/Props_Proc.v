(** C75-C78: the commands of hwp5proc that print records and models. *)
From Coq Require Import ZArith String List Bool Lia.
From Verif Require Import Base Model_Text Model_Dataio Model_Record Model_Readers Model_Bintype Model_Models Model_Storage Model_Filestructure Model_Json Model_Proc.
From Verif Require Import Spec_Record Spec_Filestructure Spec_Storage Spec_Json Spec_Proc Proof_Record Proof_JsonModels Proof_Proc Props_Json.
Import ListNotations.
Open Scope Z_scope.

(** ** C75 *)

Theorem C75_range : forall float_repr fmt t m n b rs o, all_bytes b -> read_records (open_bytes b) = (rs, o) -> range_says t m n -> countable m -> countable n ->
  exists ys, picked (fun r => exists k, r_seqno r = Some k /\ m <= k < n) rs ys /\
    records_main float_repr fmt (SubRange t) (open_bytes b) = print_records float_repr fmt (ys, if (m <=? zlen rs) && (n <=? zlen rs) then Finished else o).
Proof. exact range_main. Qed.
Print Assumptions C75_range.
Theorem C75_range_refused : forall float_repr fmt t s, t <> [] -> (forall m n, range_says t m n -> countable m -> countable n -> False) ->
  records_main float_repr fmt (SubRange t) s = ([], Failed ValueError).
Proof. exact range_refused. Qed.
Print Assumptions C75_range_refused.
Theorem C75_tree : forall float_repr fmt t n s rs gs, read_records s = (rs, Finished) -> int_text t n -> countable n -> is_grouping r_level rs gs ->
  records_main float_repr fmt (SubTree t) s = match nth_error gs (Z.to_nat n) with Some g => print_records float_repr fmt (g, Finished) | None => ([], Failed TypeError) end.
Proof. exact tree_main. Qed.
Print Assumptions C75_tree.
Theorem C75_tree_refused : forall float_repr fmt t s, (forall n, int_text t n -> countable n -> False) -> records_main float_repr fmt (SubTree t) s = ([], Failed ValueError).
Proof. exact tree_refused. Qed.
Print Assumptions C75_tree_refused.
Theorem C75_all : forall float_repr fmt s, records_main float_repr fmt NoSubset s = print_records float_repr fmt (read_records s) /\
  records_main float_repr fmt (SubRange []) s = print_records float_repr fmt (read_records s).
Proof. exact main_all. Qed.
Print Assumptions C75_all.

(** The lines, and what can be recovered from them. *)
Theorem C75_simple : forall float_repr b sel rs o, all_bytes b -> select_records sel (read_records (open_bytes b)) = (rs, o) ->
  exists ls, print_records float_repr Simple (rs, o) = (map (fun l => l ++ [10]) ls, o) /\ Forall2 record_line rs ls.
Proof. exact simple_lines. Qed.
Print Assumptions C75_simple.
Theorem C75_simple_recovered : forall float_repr b b' sel sel' rs rs' o o' out out', all_bytes b -> all_bytes b' ->
  select_records sel (read_records (open_bytes b)) = (rs, o) -> select_records sel' (read_records (open_bytes b')) = (rs', o') ->
  print_records float_repr Simple (rs, o) = (out, o) -> print_records float_repr Simple (rs', o') = (out', o') -> concat out = concat out' ->
  map (fun r => (r_seqno r, r_level r, r_tagid r)) rs = map (fun r => (r_seqno r, r_level r, r_tagid r)) rs'.
Proof. exact simple_determined. Qed.
Print Assumptions C75_simple_recovered.

(** The raw output is a stream of the selected records again. *)
Theorem C75_raw : forall float_repr b sel rs o, all_bytes b -> select_records sel (read_records (open_bytes b)) = (rs, o) ->
  exists chunks, print_records float_repr Raw (rs, o) = (chunks, o) /\ concat chunks = wire_all (map raw_of rs) /\
    read_records (open_bytes (concat chunks)) = (expected 0 (map raw_of rs), Finished).
Proof. exact raw_written. Qed.
Print Assumptions C75_raw.
Theorem C75_raw_parts : forall float_repr b sel rs o, all_bytes b -> select_records sel (read_records (open_bytes b)) = (rs, o) ->
  exists headers payloads, print_records float_repr RawHeader (rs, o) = (headers, o) /\ print_records float_repr RawPayload (rs, o) = (payloads, o) /\
    Forall2 (fun r h => h = wire_header (r_tagid r) (r_level r) (zlen (r_payload r))) rs headers /\ payloads = map r_payload rs /\
    print_records float_repr Raw (rs, o) = (map (fun hp => fst hp ++ snd hp) (combine headers payloads), o).
Proof. exact raw_parts. Qed.
Print Assumptions C75_raw_parts.

(** JSON is written unless another format is asked for. *)
Theorem C75_json : forall float_repr, (forall bits, finite bits -> exists j, number_says (float_repr bits) j) ->
  forall b sel rs, all_bytes b -> select_records sel (read_records (open_bytes b)) = (rs, Finished) -> rs <> [] ->
  exists chunks js, print_records float_repr AsJson (rs, Finished) = (chunks, Finished) /\ is_json (concat chunks) (JA js) /\
    Forall2 (fun r j => exists n, r_seqno r = Some n /\ record_says r n j) rs js.
Proof. intros fr FO b sel rs B E N. destruct (C73_records fr FO b sel rs B E N) as (chunks & js & H). exists chunks, js. rewrite E in H. exact H. Qed.
Print Assumptions C75_json.

Definition three_records : list Z := [66; 0; 16; 0; 9] ++ [67; 4; 32; 0; 65; 0] ++ [66; 0; 16; 0; 8].
Example C75_case :
  records_main (fun _ => []) Simple NoSubset (open_bytes three_records) =
    ([zs "0000  HWPTAG_PARA_HEADER" ++ [10]; zs "0001    HWPTAG_PARA_TEXT" ++ [10]; zs "0002  HWPTAG_PARA_HEADER" ++ [10]], Finished) /\
  records_main (fun _ => []) Raw (SubRange (zs "1-3")) (open_bytes three_records) = ([[67; 4; 32; 0; 65; 0]; [66; 0; 16; 0; 8]], Finished) /\
  records_main (fun _ => []) RawPayload (SubTree (zs "0")) (open_bytes three_records) = ([[9]; [65; 0]], Finished) /\
  records_main (fun _ => []) RawHeader (SubRange (zs " 2")) (open_bytes three_records) = ([[66; 0; 16; 0]], Finished) /\
  records_main (fun _ => []) Raw (SubRange (zs "-1")) (open_bytes three_records) = ([], Failed ValueError).
Proof. vm_compute. repeat split. Qed.
Example C75_range_case : range_says (zs "1-3") 1 3 /\ range_says (zs " 2") 2 3.
Proof.
  split.
  - apply (rg_two [49] [51]); [cbn; intuition discriminate| |]; apply Proof_Sections.py_int_iff; reflexivity.
  - apply (rg_one (zs " 2") 2); [cbn; intuition discriminate|]. apply Proof_Sections.py_int_iff; reflexivity.
Qed.

(** ** C76 *)

(** The n-th model is the model of the record with number n. *)
Theorem C76_seqno : forall fuel version b t n ms o, all_bytes b -> stream_models fuel version (read_records (open_bytes b)) = (ms, o) ->
  int_text t n -> countable n -> countable (n + 1) ->
  match nth_error ms (Z.to_nat n) with
  | Some rm => select_models fuel version (SeqnoModel t) (read_records (open_bytes b)) = ([rm], Finished) /\ r_seqno (fst rm) = Some n
  | None => select_models fuel version (SeqnoModel t) (read_records (open_bytes b)) = ([], o)
  end.
Proof. exact seqno_selects. Qed.
Print Assumptions C76_seqno.
Theorem C76_seqno_refused : forall fuel version t records, t <> [] -> (forall n, int_text t n -> countable n -> countable (n + 1) -> False) ->
  select_models fuel version (SeqnoModel t) records = ([], Failed ValueError).
Proof. exact seqno_refused. Qed.
Print Assumptions C76_seqno_refused.
(** The models are models of the first records, in order, until one fails. *)
Theorem C76_prefix : forall fuel version b, all_bytes b ->
  exists rest, fst (read_records (open_bytes b)) = map fst (fst (stream_models fuel version (read_records (open_bytes b)))) ++ rest.
Proof. exact models_prefix. Qed.
Print Assumptions C76_prefix.
Theorem C76_tree : forall fuel version t n records, int_text t n -> countable n -> select_models fuel version (TreeModels t) records = treegroup_models fuel version (Z.to_nat n) records.
Proof. exact tree_selects. Qed.
Print Assumptions C76_tree.
Theorem C76_tree_refused : forall fuel version t records, t <> [] -> (forall n, int_text t n -> countable n -> False) ->
  select_models fuel version (TreeModels t) records = ([], Failed ValueError).
Proof. exact tree_models_refused. Qed.
Print Assumptions C76_tree_refused.
Theorem C76_simple : forall float_repr fuel version s b ms o, all_bytes b -> select_models fuel version s (read_records (open_bytes b)) = (ms, o) ->
  exists ls, models_main float_repr fuel version true s (open_bytes b) = (map (fun l => l ++ [10]) ls, o) /\ Forall2 model_line ms ls.
Proof. exact simple_models. Qed.
Print Assumptions C76_simple.
Theorem C76_simple_recovered : forall rm rm' l, model_line rm l -> model_line rm' l ->
  r_seqno (fst rm) = r_seqno (fst rm') /\ r_level (fst rm) = r_level (fst rm') /\ m_type (snd rm) = m_type (snd rm').
Proof. exact model_line_fun. Qed.
Print Assumptions C76_simple_recovered.
Theorem C76_json : forall float_repr fuel version s stream, models_main float_repr fuel version false s stream = models_json float_repr (select_models fuel version s (read_records stream)).
Proof. reflexivity. Qed.
Print Assumptions C76_json.
(** The version of a stream of the standard input. *)
Theorem C76_version : forall t l, t <> [] -> (version_arg t = Ok l <-> version_says t l).
Proof. exact version_given. Qed.
Print Assumptions C76_version.
Theorem C76_version_refused : forall t, t <> [] -> (forall l, ~ version_says t l) -> version_arg t = Raise ValueError.
Proof. exact version_refused. Qed.
Print Assumptions C76_version_refused.
Theorem C76_default_version : version_arg [] = Ok [5; 0; 0; 0].
Proof. vm_compute. reflexivity. Qed.
Print Assumptions C76_default_version.

Example C76_case :
  models_main (fun _ => []) 300 [5; 0; 0; 0] true AllModels (open_bytes [67; 0; 128; 0; 65; 0; 92; 213; 34; 0; 13; 0; 255; 7; 16; 0; 7]) =
    ([zs "0000 ParaText" ++ [10]; zs "0001  UnknownTagModel" ++ [10]], Finished) /\
  models_main (fun _ => []) 300 [5; 0; 0; 0] true (SeqnoModel (zs "1")) (open_bytes [67; 0; 128; 0; 65; 0; 92; 213; 34; 0; 13; 0; 255; 7; 16; 0; 7]) =
    ([zs "0001  UnknownTagModel" ++ [10]], Finished) /\
  version_arg (zs "5.0.1.7") = Ok [5; 0; 1; 7] /\ version_arg [] = Ok [5; 0; 0; 0] /\ version_arg (zs "5..1") = Raise ValueError.
Proof. vm_compute. repeat split. Qed.

(** ** C77 *)

Theorem C77_docinfo : forall h, parse_recordstream_name h (zs "docinfo") = open_storage_item h (zs "DocInfo").
Proof. exact name_docinfo. Qed.
Print Assumptions C77_docinfo.
Theorem C77_section : forall h t n u, int_text t n -> numeral u n -> open_storage_item h (zs "BodyText/Section" ++ u) <> Raise ValueError ->
  parse_recordstream_name h (zs "bodytext/" ++ t) = open_storage_item h (zs "BodyText/Section" ++ u).
Proof. exact name_section. Qed.
Print Assumptions C77_section.
Theorem C77_other : forall h p, p <> zs "docinfo" -> (forall t n, int_text t n -> p <> zs "bodytext/" ++ t) -> parse_recordstream_name h p = open_storage_item h p.
Proof. exact name_other. Qed.
Print Assumptions C77_other.

Definition small_file : item :=
  dir_item (DFile (zs "DocInfo") [1] (DDir (zs "BodyText") (DFile (zs "Section0") [2] (DFile (zs "Section1") [3] DNil))
    (DDir (zs "bodytext") (DFile (zs "1") [4] (DFile (zs "x") [5] DNil)) DNil))).
Definition content (r : res item) : res (list Z) := let? y := r in open y.
Example C77_case :
  content (parse_recordstream_name small_file (zs "docinfo")) = Ok [1] /\ content (parse_recordstream_name small_file (zs "bodytext/1")) = Ok [3] /\
  content (parse_recordstream_name small_file (zs "bodytext/ 0")) = Ok [2] /\ content (parse_recordstream_name small_file (zs "BodyText/Section1")) = Ok [3] /\
  content (parse_recordstream_name small_file (zs "bodytext/x")) = Ok [5].
Proof. vm_compute. repeat split. Qed.
(** A stream that is itself called bodytext/1 cannot be had by its own name. *)
Theorem C77_every_path_refuted : exists h p, content (open_storage_item h p) = Ok [4] /\ content (parse_recordstream_name h p) = Ok [3].
Proof. exists small_file, (zs "bodytext/1"). vm_compute. split; reflexivity. Qed.
Print Assumptions C77_every_path_refuted.

(** ** C78 *)

Theorem C78_find : forall fuel f incomplete files, (forall t n, f = WithTag t -> int_text t n -> In n (map fst documented_tags)) -> files_of_bytes files ->
  exists ls o, find_main fuel f incomplete files = (map (fun l => l ++ [10]) ls, o) /\ files_say (item_models fuel) (wanted f incomplete) found_line files ls o.
Proof. exact find_finds. Qed.
Print Assumptions C78_find.
Theorem C78_unknown_tag : forall fuel t n incomplete files, int_text t n -> ~ In n (map fst documented_tags) -> find_main fuel (WithTag t) incomplete files = ([], Failed KeyError).
Proof. exact unknown_tag. Qed.
Print Assumptions C78_unknown_tag.
(** That says what is printed and how the run ends. *)
Theorem C78_determined : forall A (models : list Z -> item -> gen A) P (line : name -> name -> A -> list Z -> Prop), (forall fn st x l l', line fn st x l -> line fn st x l' -> l = l') ->
  forall files ls ls' o o', files_say models P line files ls o -> files_say models P line files ls' o' -> ls = ls' /\ o = o'.
Proof. exact files_say_fun. Qed.
Print Assumptions C78_determined.
Theorem C78_line_determined : forall fn st rm l l', found_line fn st rm l -> found_line fn st rm l' -> l = l'.
Proof. exact found_line_fun. Qed.
Print Assumptions C78_line_determined.

Definition file_with (docinfo section0 : list Z) : res (item * list Z) :=
  Ok (dir_item (DFile (zs "DocInfo") docinfo (DDir (zs "BodyText") (DFile (zs "Section0") section0 DNil) DNil)), [5; 0; 0; 0]).
Definition text_record : list Z := [67; 0; 32; 0; 65; 0].
Definition unknown_record : list Z := [255; 3; 16; 0; 7].
Definition found (ls : list string) (o : outcome) : gen (list Z) := (map (fun l => zs l ++ [10]) ls, o).
Definition file_a : name * res (item * list Z) := (zs "a", file_with unknown_record (text_record ++ unknown_record)).
Definition file_b : name * res (item * list Z) := (zs "b", file_with text_record text_record).
(** Document properties of one byte instead of 26. *)
Definition cut_short : name * res (item * list Z) := (zs "c", file_with (unknown_record ++ [16; 0; 16; 0; 9]) text_record).

Example C78_case :
  find_main 300 (WithTag (zs "67")) false [file_a; file_b] =
    found ["a BodyText/Section0 0 HWPTAG_PARA_TEXT ParaText"; "b DocInfo 0 HWPTAG_PARA_TEXT ParaText"; "b BodyText/Section0 0 HWPTAG_PARA_TEXT ParaText"]%string Finished /\
  find_main 300 AnyModel true [file_a; file_b] =
    found ["a DocInfo 0 HWPTAG1007 UnknownTagModel"; "a BodyText/Section0 1 HWPTAG1007 UnknownTagModel"]%string Finished /\
  find_main 300 (WithModel (zs "ParaText")) false [cut_short; file_b] =
    found ["b DocInfo 0 HWPTAG_PARA_TEXT ParaText"; "b BodyText/Section0 0 HWPTAG_PARA_TEXT ParaText"]%string Finished /\
  find_main 300 (WithTag (zs "HWPTAG1007")) false [cut_short; file_a] =
    found ["c DocInfo 0 HWPTAG1007 UnknownTagModel"; "a DocInfo 0 HWPTAG1007 UnknownTagModel"; "a BodyText/Section0 1 HWPTAG1007 UnknownTagModel"]%string Finished.
Proof. vm_compute. repeat split. Qed.
Example C78_bytes_case : files_of_bytes [file_a; file_b].
Proof.
  assert (F : forall x y h v, Forall is_byte x -> Forall is_byte y -> file_with x y = Ok (h, v) -> file_of_bytes h).
  { intros x y h v X Y E. injection E as <- <-. split.
    - intros d E b O. vm_compute in E. injection E as <-. vm_compute in O. injection O as <-. exact X.
    - intros t n z E E' b O. change (Ok (dir_item (DFile (zs "Section0") y DNil)) = Ok t) in E. injection E as <-.
      change ((if name_eqb (zs "Section0") n then Ok (stream_item (Ok y) []) else Raise KeyError) = Ok z) in E'. destruct (name_eqb (zs "Section0") n); [|discriminate]. injection E' as <-. injection O as <-. exact Y. }
  constructor; [|constructor; [|constructor]]; intros h v; apply F; repeat constructor; unfold is_byte; lia.
Qed.

(** A file whose records cannot be read, or whose flags are cut short, ends the
    whole search: the files after it are not searched. *)
Theorem C78_goes_on_refuted : exists bad e, snd (find_main 300 AnyModel false [file_b]) = Finished /\ find_main 300 AnyModel false [(zs "bad", bad); file_b] = ([], Failed e).
Proof. exists (file_with [66; 0; 16; 0; 9] []), KeyError. vm_compute. split; reflexivity. Qed.
Print Assumptions C78_goes_on_refuted.
