(** Proofs about hwp5proc as a command. *)
From Coq Require Import ZArith String List Bool Lia.
From Verif Require Import Base BaseFacts Model_Text Model_Dataio Model_Bintype Model_Storage Model_Filestructure Model_XmlText Model_Convert Model_ProcMain.
From Verif Require Import Spec_Storage Spec_XmlText Spec_XmlElement Spec_Filestructure Spec_Convert Proof_Storage Proof_Filestructure Proof_XmlText Proof_Convert Proof_XmlSection Proof_Unpack.
Import ListNotations.
Open Scope string_scope.
Open Scope list_scope.
Open Scope Z_scope.

Lemma proc_status : forall r, match proc_handled r with
  | Exit c => (c = 0 /\ r = Ok tt) \/ (c = 1 /\ (r = Raise InvalidHwp5File \/ exists e o, r = Raise (ParseError e o)))
  | Raised e => r = Raise e /\ e <> InvalidHwp5File /\ forall e' o, e <> ParseError e' o
  end.
Proof.
  intros [[]|e]; [left; auto|]. unfold InvalidHwp5File. destruct e; cbn; try (split; [reflexivity|split; [discriminate|intros; discriminate]]).
  - right. split; [reflexivity|]. right. eauto.
  - destruct n as [|[p|[p|p|]|]|p]; try (split; [reflexivity|split; [discriminate|intros; discriminate]]). right. auto.
Qed.
Lemma version_printed : forall h y v1 v2 v3 v4 t1 t2 t3 t4 flags rest, get h (zs "FileHeader") = Ok y -> open y = Ok (header_bytes magic v1 v2 v3 v4 flags rest) -> rest <> [] -> 0 <= flags < 2 ^ 32 ->
  numeral t1 v1 -> numeral t2 v2 -> numeral t3 v3 -> numeral t4 v4 ->
  version_main (Ok h) = (t1 ++ zs "." ++ t2 ++ zs "." ++ t3 ++ zs "." ++ t4 ++ [10], Exit 0).
Proof.
  intros h y v1 v2 v3 v4 t1 t2 t3 t4 flags rest HG HO HR HF N1 N2 N3 N4. unfold version_main, opened_header. cbn [bind]. rewrite HG. cbn [bind]. rewrite HO. cbn [bind].
  unfold header_version. rewrite (header_bytes_dict magic v1 v2 v3 v4 flags rest eq_refl HR HF). cbn [bind dict_item dict_get String.eqb Ascii.eqb Bool.eqb].
  unfold version_text. rewrite (numeral_fmt t1 v1 N1), (numeral_fmt t2 v2 N2), (numeral_fmt t3 v3 N3), (numeral_fmt t4 v4 N4). cbn [bind printed]. rewrite <- !app_assoc. reflexivity.
Qed.
Lemma header_printed : forall h y v1 v2 v3 v4 t1 t2 t3 t4 flags rest, get h (zs "FileHeader") = Ok y -> open y = Ok (header_bytes magic v1 v2 v3 v4 flags rest) -> rest <> [] -> 0 <= flags < 2 ^ 32 ->
  numeral t1 v1 -> numeral t2 v2 -> numeral t3 v3 -> numeral t4 v4 ->
  header_main (Ok h) = (header_lines flags (t1 ++ zs "." ++ t2 ++ zs "." ++ t3 ++ zs "." ++ t4), Exit 0).
Proof.
  intros h y v1 v2 v3 v4 t1 t2 t3 t4 flags rest HG HO HR HF N1 N2 N3 N4. unfold header_main, opened_header. cbn [bind]. rewrite HG. cbn [bind]. rewrite HO. cbn [bind].
  rewrite (header_text_lines v1 v2 v3 v4 t1 t2 t3 t4 flags rest HR HF N1 N2 N3 N4). reflexivity.
Qed.

Definition nested_format (format : option name) : Prop := format = None \/ format = Some [] \/ format = Some (zs "nested").
Lemma nested_dump : forall events flat format no_decl embed x, nested_format format -> xmldump events flat format no_decl embed x = dump (negb no_decl) (events embed x).
Proof. intros events flat format no_decl embed x [->|[->| ->]]; reflexivity. Qed.
Lemma dumped : forall t decl, well_named t -> writable_text t -> exists text body,
  dump decl (events_of t, Finished) = ((if decl then zs "<?xml version=""1.0"" encoding=""utf-8""?>" ++ [10] else []) ++ body, None) /\ utf8_decode body = Some text /\ xml_read text = Some (read_back [] (events_of t)).
Proof.
  intros t decl W H. destruct (element_bytes t W H decl) as (chunks & text & body & E & C & D & R). exists text, body. unfold dump. cbn [fst snd]. rewrite E, C. auto.
Qed.
Lemma out_file : forall out p cwd q f, fs_resolve f cwd p = Ok q -> fs_lookup f q <> Some Dir -> exists c p', p = c :: p' /\
  exists f', written_file p out cwd f = (f', raised (snd out)) /\ fs_lookup f' q = Some (File (fst out)) /\ (forall r, r <> q -> fs_lookup f' r = fs_lookup f r).
Proof.
  intros out p cwd q f HR HD. destruct p as [|c p]; [discriminate|]. exists c, p. split; [reflexivity|]. exists ((q, File (fst out)) :: f). assert (HQ : q <> []) by (intros ->; now apply HD).
  split; [|split; [now apply lookup_same|intros r HN; now apply lookup_other]].
  unfold written_file, fs_write. rewrite HR. destruct (fs_lookup f q) as [[b|]|]; [|congruence|]; reflexivity.
Qed.
Lemma xml_to_file : forall events flat lint x t format no_decl embed p cwd q f, nested_format format -> events embed x = (events_of t, Finished) -> well_named t -> writable_text t ->
  fs_resolve f cwd p = Ok q -> fs_lookup f q <> Some Dir ->
  exists f' text body, xml_main (Ok x) events flat lint format no_decl embed true (Some p) cwd f = (f', [], Exit 0) /\
    fs_lookup f' q = Some (File ((if no_decl then [] else zs "<?xml version=""1.0"" encoding=""utf-8""?>" ++ [10]) ++ body)) /\
    utf8_decode body = Some text /\ xml_read text = Some (read_back [] (events_of t)) /\ (forall r, r <> q -> fs_lookup f' r = fs_lookup f r).
Proof.
  intros events flat lint x t format no_decl embed p cwd q f HN HE W WT HR HD. destruct (dumped t (negb no_decl) W WT) as (text & body & E & D & R).
  destruct (out_file ((if no_decl then [] else zs "<?xml version=""1.0"" encoding=""utf-8""?>" ++ [10]) ++ body, None) p cwd q f HR HD) as (c & p' & -> & f' & EW & L & O).
  exists f', text, body. cbn [fst snd] in *. unfold xml_main. rewrite (nested_dump _ _ _ _ _ _ HN), HE, E. cbn [fst snd].
  replace (if negb no_decl then zs "<?xml version=""1.0"" encoding=""utf-8""?>" ++ [10] else []) with (if no_decl then [] else zs "<?xml version=""1.0"" encoding=""utf-8""?>" ++ [10]) by (destruct no_decl; reflexivity).
  rewrite EW. auto.
Qed.
Lemma xml_to_stdout : forall events flat lint x t format no_decl embed output cwd f, nested_format format -> events embed x = (events_of t, Finished) -> well_named t -> writable_text t ->
  output = None \/ output = Some [] ->
  exists text body, xml_main (Ok x) events flat lint format no_decl embed true output cwd f = (f, (if no_decl then [] else zs "<?xml version=""1.0"" encoding=""utf-8""?>" ++ [10]) ++ body, Exit 0) /\
    utf8_decode body = Some text /\ xml_read text = Some (read_back [] (events_of t)).
Proof.
  intros events flat lint x t format no_decl embed output cwd f HN HE W WT HO. destruct (dumped t (negb no_decl) W WT) as (text & body & E & D & R). exists text, body.
  unfold xml_main. rewrite (nested_dump _ _ _ _ _ _ HN), HE, E. cbn [fst snd raised proc_handled].
  replace (if negb no_decl then zs "<?xml version=""1.0"" encoding=""utf-8""?>" ++ [10] else []) with (if no_decl then [] else zs "<?xml version=""1.0"" encoding=""utf-8""?>" ++ [10]) by (destruct no_decl; reflexivity).
  destruct HO as [->| ->]; auto.
Qed.
Lemma encodable : forall es, nested [] es -> Forall writable es -> exists b, utf8_encode (concat (xmlevents_to_textchunks es)) = Ok b.
Proof.
  intros es HN HW. pose proof (machine_events es [] HN HW []) as HM. apply machine_chars in HM.
  destruct (utf8_roundtrip (concat (xmlevents_to_textchunks es))) as (b & E & _); [|eauto]. revert HM. apply Forall_impl. intros c. unfold xml_charb, scalar. lia.
Qed.
Lemma encodable_parts : forall es more, nested [] (es ++ more) -> Forall writable (es ++ more) -> exists a b,
  utf8_encode (concat (xmlevents_to_textchunks es)) = Ok a /\ utf8_encode (concat (xmlevents_to_textchunks more)) = Ok b /\ utf8_encode (concat (xmlevents_to_textchunks (es ++ more))) = Ok (a ++ b).
Proof.
  intros es more HN HW. destruct (encodable _ HN HW) as (c & E). unfold xmlevents_to_textchunks in *. rewrite flat_map_app, concat_app in *. pose proof E as E'. rewrite utf8_encode_app in E.
  destruct (utf8_encode (concat (flat_map event_chunks es))) as [a|]; [|discriminate]. destruct (utf8_encode (concat (flat_map event_chunks more))) as [b|]; [|discriminate]. injection E as <-. exists a, b. auto.
Qed.
Lemma dump_bytes : forall decl es o b, utf8_encode (concat (xmlevents_to_textchunks es)) = Ok b ->
  dump decl (es, o) = ((if decl then xml_declaration else []) ++ b, match o with Failed e => Some e | _ => None end).
Proof.
  intros decl es o b E. destruct (encode_chunks_ok _ _ E) as (l & E1 & E2). unfold dump, xml_bytechunks. cbn [fst snd]. rewrite E1, <- E2. destruct decl; reflexivity.
Qed.
Lemma dump_prefix : forall decl es e, (exists more, nested [] (es ++ more) /\ Forall writable (es ++ more)) -> exists b, dump decl (es, Failed e) = (b, Some e) /\
    forall more, nested [] (es ++ more) -> Forall writable (es ++ more) -> exists text body,
      b ++ fst (dump false (more, Finished)) = (if decl then xml_declaration else []) ++ body /\
      utf8_decode body = Some text /\ xml_read text = Some (read_back [] (es ++ more)).
Proof.
  intros decl es e (more0 & HN0 & HW0). destruct (encodable_parts es more0 HN0 HW0) as (a & b0 & EA & _ & _). rewrite (dump_bytes decl es (Failed e) a EA). eexists. split; [reflexivity|].
  intros more HN HW. destruct (encodable_parts es more HN HW) as (a' & b & EA' & EB & EW). rewrite EA in EA'. injection EA' as <-. rewrite (dump_bytes false more Finished b EB). cbn [fst app].
  destruct (bytes_read_back decl (es ++ more) HN HW) as (chunks & text & body & E & C & D & R). exists text, body. split; [|auto]. rewrite <- app_assoc, <- C.
  pose proof (dump_bytes decl (es ++ more) Finished (a ++ b) EW) as X. unfold dump in X. cbn [fst snd] in X. rewrite E in X. now injection X as ->.
Qed.
Lemma xml_broken : forall events flat lint x es e format no_decl embed p cwd q f, nested_format format -> events embed x = (es, Failed e) ->
  (exists more, nested [] (es ++ more) /\ Forall writable (es ++ more)) -> fs_resolve f cwd p = Ok q -> fs_lookup f q <> Some Dir ->
  exists f' b, xml_main (Ok x) events flat lint format no_decl embed true (Some p) cwd f = (f', [], proc_handled (Raise e)) /\
    fs_lookup f' q = Some (File b) /\ (forall r, r <> q -> fs_lookup f' r = fs_lookup f r) /\
    forall more, nested [] (es ++ more) -> Forall writable (es ++ more) -> exists text body,
      b ++ fst (dump false (more, Finished)) = (if no_decl then [] else zs "<?xml version=""1.0"" encoding=""utf-8""?>" ++ [10]) ++ body /\
      utf8_decode body = Some text /\ xml_read text = Some (read_back [] (es ++ more)).
Proof.
  intros events flat lint x es e format no_decl embed p cwd q f HN HE HC HR HD. destruct (dump_prefix (negb no_decl) es e HC) as (b & E & P).
  destruct (out_file (b, Some e) p cwd q f HR HD) as (c & p' & -> & f' & EW & L & O). exists f', b. cbn [fst snd raised] in *. unfold xml_main. rewrite (nested_dump _ _ _ _ _ _ HN), HE, E. cbn [fst snd]. rewrite EW.
  repeat split; auto. intros more HNM HWM. destruct (P more HNM HWM) as (text & body & X & Y & Z0). exists text, body. split; [|auto]. rewrite X. destruct no_decl; reflexivity.
Qed.
Lemma xml_broken_stdout : forall events flat lint x es e format no_decl embed output cwd f, nested_format format -> events embed x = (es, Failed e) ->
  (exists more, nested [] (es ++ more) /\ Forall writable (es ++ more)) -> output = None \/ output = Some [] ->
  exists b, xml_main (Ok x) events flat lint format no_decl embed true output cwd f = (f, b, proc_handled (Raise e)) /\
    forall more, nested [] (es ++ more) -> Forall writable (es ++ more) -> exists text body,
      b ++ fst (dump false (more, Finished)) = (if no_decl then [] else zs "<?xml version=""1.0"" encoding=""utf-8""?>" ++ [10]) ++ body /\
      utf8_decode body = Some text /\ xml_read text = Some (read_back [] (es ++ more)).
Proof.
  intros events flat lint x es e format no_decl embed output cwd f HN HE HC HO. destruct (dump_prefix (negb no_decl) es e HC) as (b & E & P). exists b. split.
  - unfold xml_main. rewrite (nested_dump _ _ _ _ _ _ HN), HE, E. destruct HO as [->| ->]; reflexivity.
  - intros more HNM HWM. destruct (P more HNM HWM) as (text & body & X & Y & Z0). exists text, body. split; [|auto]. rewrite X. destruct no_decl; reflexivity.
Qed.
Lemma char_error : forall c, (exists b, utf8_char c = Ok b) \/ utf8_char c = Raise (OtherError 1).
Proof. intros c. unfold utf8_char. repeat match goal with |- context [if ?b then _ else _] => destruct b end; eauto. Qed.
Lemma encode_error : forall s, (exists b, utf8_encode s = Ok b) \/ utf8_encode s = Raise (OtherError 1).
Proof.
  induction s as [|c s IH]; [left; eexists; reflexivity|]. cbn [utf8_encode]. destruct (char_error c) as [(b & ->)| ->]; [|right; reflexivity]. cbn [bind]. destruct IH as [(b' & ->)| ->]; [left; eexists; reflexivity|right; reflexivity].
Qed.
Lemma encode_surrogate : forall s c, In c s -> 0xd800 <= c < 0xe000 -> utf8_encode s = Raise (OtherError 1).
Proof.
  induction s as [|d s IH]; intros c I R; [destruct I|]. cbn [utf8_encode]. destruct I as [->|I].
  - assert (E : utf8_char c = Raise (OtherError 1)); [|now rewrite E]. unfold utf8_char. replace (c <? 0x80) with false by lia. replace (c <? 0x800) with false by lia. replace (0xd800 <=? c) with true by lia. replace (c <? 0xe000) with true by lia. reflexivity.
  - destruct (char_error d) as [(b & ->)| ->]; [|reflexivity]. cbn [bind]. now rewrite (IH c I R).
Qed.
Lemma chunks_surrogate : forall l s c, In s l -> In c s -> 0xd800 <= c < 0xe000 -> snd (encode_chunks l) = Failed (OtherError 1).
Proof.
  induction l as [|d l IH]; intros s c I J R; [destruct I|]. cbn [encode_chunks]. destruct (encode_error d) as [(b & E)|E]; rewrite E; [|reflexivity].
  destruct I as [->|I]; [rewrite (encode_surrogate s c J R) in E; discriminate|]. specialize (IH s c I J R). destruct (encode_chunks l). exact IH.
Qed.
Lemma replace_keeps : forall k r s c, In c s -> c <> k -> In c (replace_char k r s).
Proof.
  intros k r s c I N. unfold replace_char. apply in_flat_map. exists c. split; [exact I|]. replace (c =? k) with false by lia. left. reflexivity.
Qed.
Lemma dump_surrogate : forall decl g t c, In (XText t) (fst g) -> In c t -> 0xd800 <= c < 0xe000 -> snd (dump decl g) = Some (OtherError 1).
Proof.
  intros decl g t c I J R. assert (K : In c (drop_nul (escape t))) by (unfold drop_nul, escape; repeat apply replace_keeps; try lia; exact J).
  assert (X : snd (encode_chunks (xmlevents_to_textchunks (fst g))) = Failed (OtherError 1)).
  { apply (chunks_surrogate _ (drop_nul (escape t)) c); [|exact K|exact R]. unfold xmlevents_to_textchunks. apply in_flat_map. exists (XText t). split; [exact I|left; reflexivity]. }
  unfold dump, xml_bytechunks. destruct (encode_chunks (xmlevents_to_textchunks (fst g))) as [l o]. cbn [snd] in X. subst o. destruct decl; reflexivity.
Qed.
Lemma xml_unencodable : forall events flat lint x es t c format no_decl embed no_validate p cwd q f, nested_format format -> fst (events embed x) = es -> In (XText t) es -> In c t -> 0xd800 <= c < 0xe000 ->
  fs_resolve f cwd p = Ok q -> fs_lookup f q <> Some Dir -> forall output, output = None \/ output = Some [] \/ output = Some p ->
  snd (xml_main (Ok x) events flat lint format no_decl embed no_validate output cwd f) = Raised (OtherError 1).
Proof.
  intros events flat lint x es t c format no_decl embed no_validate p cwd q f HN HE I J R HR HD output HO. subst es. pose proof (dump_surrogate (negb no_decl) _ t c I J R) as X.
  unfold xml_main. rewrite (nested_dump _ _ _ _ _ _ HN). destruct (dump (negb no_decl) (events embed x)) as [b o]. cbn [fst snd] in *. subst o.
  destruct HO as [->|[->| ->]]; [reflexivity|reflexivity|].
  destruct (out_file (if no_validate then b else lint b, Some (OtherError 1)) p cwd q f HR HD) as (d & p' & -> & f' & EW & _). rewrite EW. reflexivity.
Qed.
Lemma xml_unwritable : forall events flat lint x format no_decl embed no_validate p cwd f, p <> [] ->
  (forall e, fs_resolve f cwd p = Raise e -> xml_main (Ok x) events flat lint format no_decl embed no_validate (Some p) cwd f = (f, [], proc_handled (Raise e))) /\
  (forall q, fs_resolve f cwd p = Ok q -> fs_lookup f q = Some Dir -> xml_main (Ok x) events flat lint format no_decl embed no_validate (Some p) cwd f = (f, [], Raised IOError)).
Proof.
  intros events flat lint x format no_decl embed no_validate p cwd f HP. destruct p as [|c p]; [congruence|]. unfold xml_main, written_file, fs_write.
  split; [intros e ->|intros q -> ->]; reflexivity.
Qed.
Lemma format_unchecked : forall events flat lint x fmt no_decl embed p cwd q f, fmt <> [] -> fmt <> zs "nested" -> (fmt = zs "flat" -> no_decl = false) ->
  fs_resolve f cwd p = Ok q -> fs_lookup f q <> Some Dir ->
  exists f' e, xml_main (Ok x) events flat lint (Some fmt) no_decl embed true (Some p) cwd f = (f', [], Raised e) /\ fs_lookup f' q = Some (File []).
Proof.
  intros events flat lint x fmt no_decl embed p cwd q f HE HN HF HR HD.
  assert (X : exists e, xmldump events flat (Some fmt) no_decl embed x = ([], Some e) /\ proc_handled (Raise e) = Raised e).
  { unfold xmldump. destruct fmt as [|c r]; [congruence|]. destruct (name_eqb (c :: r) (zs "flat")) eqn:E1.
    - apply name_eqb_eq in E1. rewrite (HF E1). exists TypeError. split; reflexivity.
    - destruct (name_eqb (c :: r) (zs "nested")) eqn:E2; [apply name_eqb_eq in E2; congruence|]. exists UnboundLocalError. split; reflexivity. }
  destruct X as (e & E & PH). destruct (out_file ([], Some e) p cwd q f HR HD) as (c & p' & -> & f' & EW & L & O). exists f', e. cbn [fst snd raised] in *. unfold xml_main. rewrite E. cbn [fst snd]. rewrite EW, PH. auto.
Qed.
