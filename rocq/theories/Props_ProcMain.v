(** C93: hwp5proc as a command, its version, header and xml. *)
From Coq Require Import ZArith String List Bool Lia.
From Verif Require Import Base BaseFacts Model_Text Model_Bintype Model_Storage Model_Filestructure Model_XmlText Model_Convert Model_ProcMain.
From Verif Require Import Spec_Storage Spec_XmlText Spec_XmlElement Spec_Filestructure Spec_Convert Proof_Storage Proof_Filestructure Proof_Convert Proof_XmlSection Proof_ProcMain.
Import ListNotations.
Open Scope string_scope.
Open Scope list_scope.
Open Scope Z_scope.

(** The exit status is 0 exactly after success, and 1 exactly after an invalid
    file or a parse error; all other exceptions go on. *)
Theorem C93_status : forall r, match proc_handled r with
  | Exit c => (c = 0 /\ r = Ok tt) \/ (c = 1 /\ (r = Raise InvalidHwp5File \/ exists e o, r = Raise (ParseError e o)))
  | Raised e => r = Raise e /\ e <> InvalidHwp5File /\ forall e' o, e <> ParseError e' o
  end.
Proof. exact proc_status. Qed.
Print Assumptions C93_status.

(** version and header print what is in the header of the file. *)
Theorem C93_version : forall h y v1 v2 v3 v4 t1 t2 t3 t4 flags rest, get h (zs "FileHeader") = Ok y -> open y = Ok (header_bytes magic v1 v2 v3 v4 flags rest) -> rest <> [] -> 0 <= flags < 2 ^ 32 ->
  numeral t1 v1 -> numeral t2 v2 -> numeral t3 v3 -> numeral t4 v4 ->
  version_main (Ok h) = (t1 ++ zs "." ++ t2 ++ zs "." ++ t3 ++ zs "." ++ t4 ++ [10], Exit 0).
Proof. exact version_printed. Qed.
Print Assumptions C93_version.
Theorem C93_header : forall h y v1 v2 v3 v4 t1 t2 t3 t4 flags rest, get h (zs "FileHeader") = Ok y -> open y = Ok (header_bytes magic v1 v2 v3 v4 flags rest) -> rest <> [] -> 0 <= flags < 2 ^ 32 ->
  numeral t1 v1 -> numeral t2 v2 -> numeral t3 v3 -> numeral t4 v4 ->
  header_main (Ok h) = (header_lines flags (t1 ++ zs "." ++ t2 ++ zs "." ++ t3 ++ zs "." ++ t4), Exit 0).
Proof. exact header_printed. Qed.
Print Assumptions C93_header.

(** A file that is not opened: nothing is printed or written. *)
Theorem C93_refused : forall e, version_main (Raise e) = ([], proc_handled (Raise e)) /\ header_main (Raise e) = ([], proc_handled (Raise e)) /\
  forall events flat lint format decl embed valid output cwd f, xml_main (Raise e) events flat lint format decl embed valid output cwd f = (f, [], proc_handled (Raise e)).
Proof. intros e. repeat split; reflexivity. Qed.
Print Assumptions C93_refused.

(** xml writes the element of the file (C72), to the file of --output or to
    standard output, with the declaration unless --no-xml-decl: its text can be
    read back.  No other file changes. *)
Definition nested_format (format : option name) : Prop := format = None \/ format = Some [] \/ format = Some (zs "nested").
Theorem C93_xml_file : forall events flat lint x t format no_decl embed p cwd q f, nested_format format -> events embed x = (events_of t, Finished) -> well_named t -> writable_text t ->
  fs_resolve f cwd p = Ok q -> fs_lookup f q <> Some Dir ->
  exists f' text body, xml_main (Ok x) events flat lint format no_decl embed true (Some p) cwd f = (f', [], Exit 0) /\
    fs_lookup f' q = Some (File ((if no_decl then [] else zs "<?xml version=""1.0"" encoding=""utf-8""?>" ++ [10]) ++ body)) /\
    utf8_decode body = Some text /\ xml_read text = Some (read_back [] (events_of t)) /\ (forall r, r <> q -> fs_lookup f' r = fs_lookup f r).
Proof. exact xml_to_file. Qed.
Print Assumptions C93_xml_file.
Theorem C93_xml_stdout : forall events flat lint x t format no_decl embed output cwd f, nested_format format -> events embed x = (events_of t, Finished) -> well_named t -> writable_text t ->
  output = None \/ output = Some [] ->
  exists text body, xml_main (Ok x) events flat lint format no_decl embed true output cwd f = (f, (if no_decl then [] else zs "<?xml version=""1.0"" encoding=""utf-8""?>" ++ [10]) ++ body, Exit 0) /\
    utf8_decode body = Some text /\ xml_read text = Some (read_back [] (events_of t)).
Proof. exact xml_to_stdout. Qed.
Print Assumptions C93_xml_stdout.

(** If making the XML fails, the file has what comes before that: together with
    the bytes of any rest it is the document of all the events.  Nothing else
    changes, and the exception ends the command. *)
Theorem C93_xml_broken : forall events flat lint x es e format no_decl embed p cwd q f, nested_format format -> events embed x = (es, Failed e) ->
  (exists more, nested [] (es ++ more) /\ Forall writable (es ++ more)) -> fs_resolve f cwd p = Ok q -> fs_lookup f q <> Some Dir ->
  exists f' b, xml_main (Ok x) events flat lint format no_decl embed true (Some p) cwd f = (f', [], proc_handled (Raise e)) /\
    fs_lookup f' q = Some (File b) /\ (forall r, r <> q -> fs_lookup f' r = fs_lookup f r) /\
    forall more, nested [] (es ++ more) -> Forall writable (es ++ more) -> exists text body,
      b ++ fst (dump false (more, Finished)) = (if no_decl then [] else zs "<?xml version=""1.0"" encoding=""utf-8""?>" ++ [10]) ++ body /\
      utf8_decode body = Some text /\ xml_read text = Some (read_back [] (es ++ more)).
Proof. exact xml_broken. Qed.
Print Assumptions C93_xml_broken.

Theorem C93_xml_broken_stdout : forall events flat lint x es e format no_decl embed output cwd f, nested_format format -> events embed x = (es, Failed e) ->
  (exists more, nested [] (es ++ more) /\ Forall writable (es ++ more)) -> output = None \/ output = Some [] ->
  exists b, xml_main (Ok x) events flat lint format no_decl embed true output cwd f = (f, b, proc_handled (Raise e)) /\
    forall more, nested [] (es ++ more) -> Forall writable (es ++ more) -> exists text body,
      b ++ fst (dump false (more, Finished)) = (if no_decl then [] else zs "<?xml version=""1.0"" encoding=""utf-8""?>" ++ [10]) ++ body /\
      utf8_decode body = Some text /\ xml_read text = Some (read_back [] (es ++ more)).
Proof. exact xml_broken_stdout. Qed.
Print Assumptions C93_xml_broken_stdout.

(** Text with a surrogate cannot be written: UnicodeEncodeError, wherever the
    output goes. *)
Theorem C93_unencodable : forall events flat lint x es t c format no_decl embed no_validate p cwd q f, nested_format format -> fst (events embed x) = es -> In (XText t) es -> In c t -> 0xd800 <= c < 0xe000 ->
  fs_resolve f cwd p = Ok q -> fs_lookup f q <> Some Dir -> forall output, output = None \/ output = Some [] \/ output = Some p ->
  snd (xml_main (Ok x) events flat lint format no_decl embed no_validate output cwd f) = Raised (OtherError 1).
Proof. exact xml_unencodable. Qed.
Print Assumptions C93_unencodable.

(** If the output file cannot be opened, nothing is written or printed. *)
Theorem C93_unwritable : forall events flat lint x format no_decl embed no_validate p cwd f, p <> [] ->
  (forall e, fs_resolve f cwd p = Raise e -> xml_main (Ok x) events flat lint format no_decl embed no_validate (Some p) cwd f = (f, [], proc_handled (Raise e))) /\
  (forall q, fs_resolve f cwd p = Ok q -> fs_lookup f q = Some Dir -> xml_main (Ok x) events flat lint format no_decl embed no_validate (Some p) cwd f = (f, [], Raised IOError)).
Proof. exact xml_unwritable. Qed.
Print Assumptions C93_unwritable.

(** A format that does not exist is not refused: the output file is emptied.  So
    it is by --format=flat, which always fails with a declaration. *)
Theorem C93_format_refuted : forall events flat lint x fmt no_decl embed p cwd q f, fmt <> [] -> fmt <> zs "nested" -> (fmt = zs "flat" -> no_decl = false) ->
  fs_resolve f cwd p = Ok q -> fs_lookup f q <> Some Dir ->
  exists f' e, xml_main (Ok x) events flat lint (Some fmt) no_decl embed true (Some p) cwd f = (f', [], Raised e) /\ fs_lookup f' q = Some (File []).
Proof. exact format_unchecked. Qed.
Print Assumptions C93_format_refuted.

Example C93_case :
  let t := Elem (zs "HwpDoc") [(zs "version", zs "5.0.1.7")] [] [] in
  let h := dir_item (DFile (zs "FileHeader") (header_bytes magic 5 0 1 7 1 [0]) DNil) in
  let f := [([zs "w"; zs "a.xml"], File [7]); ([zs "w"], Dir)] in
  let run format no_decl output := xml_main (Ok h) (fun _ _ => (events_of t, Finished)) (fun _ => ([], None)) (fun b => b) format no_decl false true output [zs "w"] f in
  version_main (Ok h) = (zs "5.0.1.7" ++ [10], Exit 0) /\ snd (header_main (Ok h)) = Exit 0 /\
  run None true None = (f, zs "<HwpDoc version=""5.0.1.7""></HwpDoc>", Exit 0) /\
  fs_lookup (fst (fst (run (Some (zs "nested")) false (Some (zs "a.xml"))))) [zs "w"; zs "a.xml"] = Some (File (zs "<?xml version=""1.0"" encoding=""utf-8""?>" ++ [10] ++ zs "<HwpDoc version=""5.0.1.7""></HwpDoc>")) /\
  fs_lookup (fst (fst (run (Some (zs "tree")) false (Some (zs "a.xml"))))) [zs "w"; zs "a.xml"] = Some (File []) /\
  (let broken := xml_main (Ok h) (fun _ _ => (opening t, Failed (ParseError (Eof 0) 0))) (fun _ => ([], None)) (fun b => b) None true false true (Some (zs "a.xml")) [zs "w"] f in
   snd broken = Exit 1 /\ fs_lookup (fst (fst broken)) [zs "w"; zs "a.xml"] = Some (File (zs "<HwpDoc version=""5.0.1.7"">"))) /\
  snd (xml_main (Ok h) (fun _ _ => ([XText [0xd800]], Finished)) (fun _ => ([], None)) (fun b => b) None true false true None [zs "w"] f) = Raised (OtherError 1).
Proof. repeat split; vm_compute; reflexivity. Qed.
