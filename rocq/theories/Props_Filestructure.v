(** C48-C50, C52, C63, C64: recognizing HWP5 files, the layers in front of
    their streams, sections, decompression, the header's text form. *)
From Coq Require Import ZArith String List Bool Lia Sorted Permutation.
From Verif Require Import Base BaseFacts Model_Text Model_Dataio Spec_Dataio Model_Storage Spec_Storage Model_Readers Model_Compressed Model_Filestructure Spec_Filestructure
  Proof_Filestructure Proof_Layers Proof_Sections Proof_Compressed.
Import ListNotations.
Open Scope string_scope.
Open Scope list_scope.
Open Scope Z_scope.

(** The declaration of the flags (filestructure.py 73-85) evaluated. *)
Example header_flags_declared :
  make_flags [AInt 0; AName "compressed"; AInt 1; AName "password"; AInt 2; AName "distributable"; AInt 3; AName "script";
              AInt 4; AName "drm"; AInt 5; AName "xmltemplate_storage"; AInt 6; AName "history"; AInt 7; AName "cert_signed";
              AInt 8; AName "cert_encrypted"; AInt 9; AName "cert_signature_extra"; AInt 10; AName "cert_drm"; AInt 11; AName "ccl"] = Ok header_flags.
Proof. reflexivity. Qed.

(** ** C50 *)

(** With a file header of at least 41 bytes the answer is whether it starts
    with the signature. *)
Theorem C50_recognized : forall x y b, get x (zs "FileHeader") = Ok y -> is_stream y = true -> open y = Ok b -> 41 <= zlen b ->
  ((exists rest, b = magic ++ rest) -> storage_is_hwp5file x = Ok true) /\
  (~ (exists rest, b = magic ++ rest) -> storage_is_hwp5file x = Ok false).
Proof. exact recognized. Qed.
Print Assumptions C50_recognized.

(** A shorter one is not answered with no: it raises. *)
Theorem C50_short_raises : forall x y b, get x (zs "FileHeader") = Ok y -> is_stream y = true -> open y = Ok b -> zlen b < 41 ->
  exists e, storage_is_hwp5file x = Raise e /\ short_header (zlen b) e.
Proof. exact unreadable. Qed.
Print Assumptions C50_short_raises.

(** No file header: no.  A storage of that name, and errors while accessing it, raise. *)
Theorem C50_missing : forall x, (get x (zs "FileHeader") = Raise KeyError -> storage_is_hwp5file x = Ok false) /\
  (forall e, get x (zs "FileHeader") = Raise e -> e <> KeyError -> storage_is_hwp5file x = Raise e) /\
  (forall y, get x (zs "FileHeader") = Ok y -> is_stream y = false -> storage_is_hwp5file x = Raise AttributeError) /\
  (forall y e, get x (zs "FileHeader") = Ok y -> is_stream y = true -> open y = Raise e -> storage_is_hwp5file x = Raise e).
Proof. exact no_header. Qed.
Print Assumptions C50_missing.

(** A document: compressed and distributable, version 5.0.3.4. *)
Definition sample_header : list Z := header_bytes magic 5 0 3 4 5 (repeat 0 216).
Definition sample_doc : dir :=
  DFile (zs "FileHeader") sample_header (DFile (zs "DocInfo") [9; 1] (DDir (zs "ViewText") (DFile (zs "Section0") [9; 2] (DFile (zs "Section1") [3] DNil))
    (DDir (zs "BodyText") (DFile (zs "Section0") [9; 4] DNil) (DFile (zs "PrvText") [65; 0] (DFile (5 :: zs "HwpSummaryInformation") [7] (DFile (zs "PrvImage") [8] DNil)))))).
Example C50_case :
  get (dir_item sample_doc) (zs "FileHeader") = Ok (stream_item (Ok sample_header) []) /\ 41 <= zlen sample_header /\
  storage_is_hwp5file (dir_item sample_doc) = Ok true /\
  storage_is_hwp5file (dir_item (DFile (zs "FileHeader") (76 :: sample_header) DNil)) = Ok false /\
  storage_is_hwp5file (dir_item (DFile (zs "FileHeader") magic DNil)) = Raise (ParseError (Eof 32) 32) /\
  storage_is_hwp5file (dir_item (DFile (zs "FileHeader") (ztake 38 sample_header) DNil)) = Raise KeyError /\
  storage_is_hwp5file (dir_item DNil) = Ok false.
Proof. repeat split; vm_compute; congruence. Qed.

(** ** C48 *)
Section C48.
  Variable inflate : list Z -> option (list Z).
  Variable decrypt : list Z -> res (list Z).
  Variable utf8_text summary_text : list Z -> res (list Z).
  Let hwp := hwp5_file inflate decrypt utf8_text summary_text.

  (** Opening: exactly the recognized storages. *)
  Theorem C48_opens : forall x flags, has_header x flags -> exists h, hwp x = Ok h.
  Proof. intros x flags H. eexists. exact (opened inflate decrypt utf8_text summary_text x flags H). Qed.
  Theorem C48_invalid : forall x, (storage_is_hwp5file x = Ok false -> hwp x = Raise InvalidHwp5File) /\
    (forall e, storage_is_hwp5file x = Raise e -> hwp x = Raise e).
  Proof. intros x. split; [exact (rejected inflate decrypt utf8_text summary_text x)|exact (rejected_raise inflate decrypt utf8_text summary_text x)]. Qed.

  (** The listing is that of the storage; what is missing stays missing. *)
  Theorem C48_listing : forall x flags h, has_header x flags -> hwp x = Ok h ->
    iter h = iter x /\ forall n e, get x n = Raise e -> get h n = Raise e.
  Proof.
    intros x flags h H E. pose proof (opened inflate decrypt utf8_text summary_text x flags H) as E2. unfold hwp in E. rewrite E2 in E. injection E as <-.
    split; [apply layered_iter|apply layered_missing].
  Qed.

  (** Streams of the root pass through the documented stages. *)
  Theorem C48_root_streams : forall x flags h n y st, has_header x flags -> hwp x = Ok h -> get x n = Ok y -> is_stream y = true ->
    ~ one_of n ["BodyText"; "ViewText"; "BinData"; "Scripts"] -> root_stages flags n st ->
    exists z, get h n = Ok z /\ is_stream z = true /\ open z = delivered inflate decrypt st (open y).
  Proof.
    intros x flags h n y st H E. pose proof (opened inflate decrypt utf8_text summary_text x flags H) as E2. unfold hwp in E. rewrite E2 in E. injection E as <-.
    apply layered_root.
  Qed.

  (** So do the streams of the storages of the root, which list the same names
      and miss the same ones. *)
  Theorem C48_inner_streams : forall x flags h n s st, has_header x flags -> hwp x = Ok h -> get x n = Ok s ->
    ~ one_of n ["FileHeader"; "DocInfo"; "PrvText"] -> n <> 5 :: zs "HwpSummaryInformation" -> inner_stages flags n st ->
    exists t, get h n = Ok t /\ iter t = iter s /\
      (forall m e, get s m = Raise e -> get t m = Raise e) /\
      (forall m y, get s m = Ok y -> is_stream y = true -> exists z, get t m = Ok z /\ is_stream z = true /\ open z = delivered inflate decrypt st (open y)).
  Proof.
    intros x flags h n s st H E. pose proof (opened inflate decrypt utf8_text summary_text x flags H) as E2. unfold hwp in E. rewrite E2 in E. injection E as <-.
    apply layered_inner.
  Qed.

  (** Everything else is the very item of the storage. *)
  Theorem C48_untouched : forall x flags h n, has_header x flags -> hwp x = Ok h ->
    ~ one_of n ["FileHeader"; "DocInfo"; "BodyText"; "ViewText"; "BinData"; "Scripts"; "PrvText"] -> n <> 5 :: zs "HwpSummaryInformation" ->
    get h n = get x n.
  Proof.
    intros x flags h n H E. pose proof (opened inflate decrypt utf8_text summary_text x flags H) as E2. unfold hwp in E. rewrite E2 in E. injection E as <-.
    apply layered_untouched.
  Qed.

  (** The other formats on offer. *)
  Theorem C48_formats : forall x flags h n y z, has_header x flags -> hwp x = Ok h -> get x n = Ok y -> is_stream y = true -> get h n = Ok z ->
    (n = zs "PrvText" -> formats z = [(zs ".utf8", let? b := open y in utf8_text b)]) /\
    (n = 5 :: zs "HwpSummaryInformation" -> formats z = [(zs ".txt", let? b := open y in summary_text b)]) /\
    (n = zs "FileHeader" -> formats z = [(zs ".txt", let? b := open y in header_text b)]) /\
    (n = zs "DocInfo" -> formats z = []).
  Proof.
    intros x flags h n y z H E. pose proof (opened inflate decrypt utf8_text summary_text x flags H) as E2. unfold hwp in E. rewrite E2 in E. injection E as <-.
    apply layered_formats.
  Qed.

  (** The text of the document. *)
  Theorem C48_text : forall x flags h, has_header x flags -> hwp x = Ok h ->
    file_text h = get h (zs (if distributed flags then "ViewText" else "BodyText")).
  Proof.
    intros x flags h H E. pose proof (opened inflate decrypt utf8_text summary_text x flags H) as E2. unfold hwp in E. rewrite E2 in E. injection E as <-.
    exact (layered_text inflate decrypt utf8_text summary_text flags x H).
  Qed.
End C48.
Print Assumptions C48_opens.
Print Assumptions C48_invalid.
Print Assumptions C48_listing.
Print Assumptions C48_root_streams.
Print Assumptions C48_inner_streams.
Print Assumptions C48_untouched.
Print Assumptions C48_formats.
Print Assumptions C48_text.

(** A toy [inflate] (drops a leading 9) and [decrypt] (adds 1 to every byte). *)
Definition toy_inflate (b : list Z) : option (list Z) := match b with 10 :: r => Some r | 9 :: r => Some r | _ => None end.
Definition toy_decrypt (b : list Z) : res (list Z) := Ok (map (fun c => c + 1) b).
Example C48_case : has_header (dir_item sample_doc) 5 /\
  (exists h, hwp5_file toy_inflate toy_decrypt Ok Ok (dir_item sample_doc) = Ok h /\
    fst (iter h) = fst (iter (dir_item sample_doc)) /\
    (let? y := open_storage_item h (zs "DocInfo") in open y) = Ok [1] /\
    (let? y := open_storage_item h (zs "BodyText/Section0") in open y) = Ok [4] /\
    (let? y := open_storage_item h (zs "ViewText/Section0") in open y) = Ok [3] /\
    (let? y := open_storage_item h (zs "ViewText/Section1") in open y) = Ok [4] /\
    (let? y := open_storage_item h (zs "PrvImage") in open y) = Ok [8] /\
    (let? t := file_text h in let? y := get t (zs "Section0") in open y) = Ok [3]).
Proof.
  split.
  - exists (stream_item (Ok sample_header) []), 5, 0, 3, 4, (repeat 0 216). repeat split; try reflexivity; try lia; discriminate.
  - exists (match hwp5_file toy_inflate toy_decrypt Ok Ok (dir_item sample_doc) with Ok h => h | Raise _ => dir_item sample_doc end).
    split; [reflexivity|]. repeat (split; [vm_compute; reflexivity|]). vm_compute; reflexivity.
Qed.
(** With the password flag nothing is done to the streams. *)
Example C48_case_password :
  (exists h, hwp5_file toy_inflate toy_decrypt Ok Ok
      (dir_item (DFile (zs "FileHeader") (header_bytes magic 5 0 3 4 7 [0]) (DDir (zs "ViewText") (DFile (zs "Section0") [9; 2] DNil) DNil))) = Ok h /\
    (let? y := open_storage_item h (zs "ViewText/Section0") in open y) = Ok [9; 2]).
Proof. eexists. split; [reflexivity|]. reflexivity. Qed.

(** ** C49 *)

(** The numbers are those of the names read as integers, in ascending order. *)
Theorem C49_sorted : forall x names, iter x = (names, Finished) ->
  exists numbers l, section_numbers names numbers /\ section_indexes x = Ok l /\ Permutation numbers l /\ StronglySorted Z.le l.
Proof. exact sections_sorted. Qed.
Print Assumptions C49_sorted.

(** Canonical names: exactly these, strictly ascending. *)
Theorem C49_canonical : forall x names, iter x = (names, Finished) -> NoDup names ->
  Forall (fun n => (exists t i, numeral t i /\ n = zs "Section" ++ t) \/ (forall t i, int_text t i -> n <> zs "Section" ++ t)) names ->
  exists l, section_indexes x = Ok l /\ StronglySorted Z.lt l /\
    (forall i, In i l <-> exists t, numeral t i /\ In (zs "Section" ++ t) names).
Proof. exact canonical_sections. Qed.
Print Assumptions C49_canonical.

(** ... and the sections are the items of these names, in that order. *)
Theorem C49_openable : forall x names, iter x = (names, Finished) -> NoDup names ->
  Forall (fun n => (exists t i, numeral t i /\ n = zs "Section" ++ t) \/ (forall t i, int_text t i -> n <> zs "Section" ++ t)) names ->
  (forall n, In n names -> exists y, get x n = Ok y) ->
  exists l ys, section_indexes x = Ok l /\ all_sections x = Ok ys /\
    Forall2 (fun i y => exists t, numeral t i /\ In (zs "Section" ++ t) names /\ get x (zs "Section" ++ t) = Ok y) l ys.
Proof. exact canonical_openable. Qed.
Print Assumptions C49_openable.

(** A numeral with a leading zero is counted, but its section cannot be opened. *)
Theorem C49_leading_zero_refuted : exists x names, iter x = (names, Finished) /\ NoDup names /\
  (forall n, In n names -> exists y, get x n = Ok y) /\ section_indexes x = Ok [1] /\ all_sections x = Raise KeyError.
Proof.
  exists (dir_item (DFile (zs "Section01") [1] DNil)), [zs "Section01"]. split; [reflexivity|]. split; [repeat constructor; intros []|].
  split; [|split; reflexivity]. intros n [<-|[]]. eexists. reflexivity.
Qed.
Print Assumptions C49_leading_zero_refuted.

Definition sample_sections : item :=
  dir_item (DFile (zs "Section10") [1] (DFile (zs "Section2") [2] (DFile (zs "other") [3] (DFile (zs "Section0") [4] DNil)))).
Lemma not_section : forall s, (forall t, s <> zs "Section" ++ t) -> forall t i, int_text t i -> s <> zs "Section" ++ t.
Proof. auto. Qed.
Example C49_case : (let names := [zs "Section10"; zs "Section2"; zs "other"; zs "Section0"] in
  iter sample_sections = (names, Finished) /\ NoDup names /\
  Forall (fun n => (exists t i, numeral t i /\ n = zs "Section" ++ t) \/ (forall t i, int_text t i -> n <> zs "Section" ++ t)) names) /\
  section_indexes sample_sections = Ok [0; 2; 10] /\
  (let? l := all_sections sample_sections in all_ok (map open l)) = Ok [[4]; [2]; [1]] /\
  section_indexes (dir_item (DFile (zs "Section-1") [] (DFile (zs "Section 1_0") [] (DFile (zs "Section+x") [] DNil)))) = Ok [-1; 10].
Proof.
  split; [|vm_compute; repeat split; reflexivity]. cbv zeta. split; [reflexivity|]. split.
  - repeat constructor; cbn; intuition discriminate.
  - constructor; [left; exists [49; 48], 10; split; [exact (num_more [49] 1 0 (num_digit 1 ltac:(lia)) ltac:(lia) ltac:(lia))|reflexivity]|].
    constructor; [left; exists [50], 2; split; [exact (num_digit 2 ltac:(lia))|reflexivity]|].
    constructor; [right; intros t i _; discriminate|].
    constructor; [left; exists [48], 0; split; [exact (num_digit 0 ltac:(lia))|reflexivity]|constructor].
Qed.

(** ** C52 *)

(** A compressed stream never fails because of its data. *)
Theorem C52_decompress : forall inflate x, 
  (forall b d, open x = Ok b -> inflate b = Some d -> open (compressed_stream inflate x) = Ok d) /\
  (forall b, open x = Ok b -> inflate b = None -> open (compressed_stream inflate x) = Ok b) /\
  (forall e, open x = Raise e -> open (compressed_stream inflate x) = Raise e).
Proof.
  intros inflate x. unfold compressed_stream. cbn [open open_wrapper].
  split; [|split]; [intros b d -> E|intros b -> E|intros e ->; reflexivity]; cbn [bind]; unfold decompress; rewrite E; reflexivity.
Qed.
Print Assumptions C52_decompress.

(** The chunked variant: whatever the chunk size, the pieces together are what
    the decompressor gives for the whole, then what it flushes. *)
Theorem C52_chunked : forall St (start : St) feed flush, incremental feed -> forall b bufsize fuel, 0 < bufsize -> (List.length b < fuel)%nat ->
  let r := decompress_gen St start feed flush fuel (open_bytes b) bufsize in
  match feed start b with
  | None => snd r = Failed ZlibError
  | Some (o, s1) => snd r = Finished /\ concat (fst r) = o ++ fst (flush s1)
  end.
Proof. exact chunked. Qed.
Print Assumptions C52_chunked.

(** A toy decompressor: a pair (n, c) stands for n times c; 255 is an error. *)
Fixpoint toy_feed (s : option Z) (l : list Z) : option (list Z * option Z) :=
  match l with
  | [] => Some ([], s)
  | c :: r =>
      if c =? 255 then None
      else match s with
           | None => toy_feed (Some c) r
           | Some n => match toy_feed None r with Some (o, s') => Some (repeat c (Z.to_nat n) ++ o, s') | None => None end
           end
  end.
Lemma toy_incremental : incremental toy_feed.
Proof.
  constructor; [intros s; reflexivity|]. intros s a. revert s. induction a as [|c a IH]; intros s b; cbn [app toy_feed].
  - destruct (toy_feed s b) as [(o & s')|]; reflexivity.
  - destruct (c =? 255); [reflexivity|]. destruct s as [n|]; [|apply IH]. rewrite IH. destruct (toy_feed None a) as [(o1 & s1)|]; [|reflexivity].
    destruct (toy_feed s1 b) as [(o2 & s2)|]; [|reflexivity]. rewrite app_assoc. reflexivity.
Qed.
Definition toy_flush (s : option Z) : list Z * option Z := (match s with Some n => [n] | None => [] end, None).
Example C52_case : incremental toy_feed /\
  decompress_gen _ None toy_feed toy_flush 8 (open_bytes [2; 65; 3; 66; 7]) 2 = ([[65; 65]; [66; 66; 66]; [7]], Finished) /\
  decompress_gen _ None toy_feed toy_flush 8 (open_bytes [2; 65; 3; 66; 7]) 3 = ([[65; 65]; [66; 66; 66; 7]], Finished) /\
  decompress_gen _ None toy_feed toy_flush 8 (open_bytes [2; 65; 3; 66]) 2 = ([[65; 65]; [66; 66; 66]; []], Finished) /\
  decompress_gen _ None toy_feed toy_flush 8 (open_bytes [2; 65; 255]) 2 = ([[65; 65]], Failed ZlibError).
Proof. split; [exact toy_incremental|]. vm_compute. repeat split; reflexivity. Qed.

(** ** C63 *)

(** The text form of the header: one line per flag, the signature and the
    version, in alphabetical order. *)
Theorem C63_header_text : forall v1 v2 v3 v4 t1 t2 t3 t4 flags rest, rest <> [] -> 0 <= flags < 2 ^ 32 ->
  numeral t1 v1 -> numeral t2 v2 -> numeral t3 v3 -> numeral t4 v4 ->
  header_text (header_bytes magic v1 v2 v3 v4 flags rest) = Ok (header_lines flags (t1 ++ [46] ++ t2 ++ [46] ++ t3 ++ [46] ++ t4)).
Proof. exact header_text_lines. Qed.
Print Assumptions C63_header_text.

Example C63_case : header_text sample_header =
  Ok (join [10] [zs "ccl: 0"; zs "cert_drm: 0"; zs "cert_encrypted: 0"; zs "cert_signature_extra: 0"; zs "cert_signed: 0"; zs "compressed: 1";
        zs "distributable: 1"; zs "drm: 0"; zs "history: 0"; zs "password: 0"; zs "script: 0"; zs "signature: HWP Document File"; zs "version: 5.0.3.4";
        zs "xmltemplate_storage: 0"; []]).
Proof. vm_compute. reflexivity. Qed.

(** ** C64 *)

(** Copying through the raw zlib reader gives the whole output, provided that
    every whole chunk of 8196 bytes that is not the last yields something. *)
Theorem C64_rawunz : forall St (start : St) feed flush, incremental feed -> (forall s, flush s = ([], s)) ->
  forall b o s size fuel, 0 < size -> productive feed start 8196 b -> feed start b = Some (o, s) -> (List.length o < fuel)%nat ->
  let r := rawunz St feed flush fuel (open_raw St start (open_bytes b)) size in
  snd r = Finished /\ concat (fst r) = o.
Proof. exact raw_copies. Qed.
Print Assumptions C64_rawunz.

(** Whatever sizes are asked for in turn, what is read is a beginning of the
    output in order, [tell] says how much, no piece is longer than asked for, and
    a read of everything leaves nothing. *)
Theorem C64_reads : forall St (start : St) feed flush, incremental feed -> (forall s, flush s = ([], s)) ->
  forall b o s sizes, feed start b = Some (o, s) ->
  exists l r left, raw_session St feed flush (open_raw St start (open_bytes b)) sizes = Some (l, r) /\
    o = concat l ++ left /\ r_offset St r = zlen (concat l) /\
    Forall2 (fun n d => 0 <= n -> zlen d <= n) sizes l /\ (Exists (fun n => n < 0) sizes -> left = []).
Proof. exact raw_sessions. Qed.
Print Assumptions C64_reads.

Example C64_reads_case : exists r, raw_session _ toy_feed (fun s => ([], s)) (open_raw _ None (open_bytes [2; 65; 3; 66])) [1; 0; 2; -1; 5] =
  Some ([[65]; []; [65; 66]; [66; 66]; []], r).
Proof. eexists. vm_compute. reflexivity. Qed.

(** Otherwise the copy ends early, without an error. *)
Definition keep_nonzero (s : unit) (l : list Z) : option (list Z * unit) := Some (filter (fun c => negb (c =? 0)) l, tt).
Lemma keep_nonzero_incremental : incremental keep_nonzero.
Proof. constructor; [intros []; reflexivity|]. intros s a b. unfold keep_nonzero. rewrite filter_app. reflexivity. Qed.
Theorem C64_ends_early_refuted : exists St (start : St) feed flush b o s, incremental feed /\ (forall s, flush s = ([], s)) /\
  feed start b = Some (o, s) /\ o <> [] /\ forall fuel, rawunz St feed flush (S fuel) (open_raw St start (open_bytes b)) 65536 = ([], Finished).
Proof.
  exists unit, tt, keep_nonzero, (fun s => ([], s)), (repeat 0 (Z.to_nat 8196) ++ [7]), [7], tt.
  split; [exact keep_nonzero_incremental|]. split; [reflexivity|]. split; [vm_compute; reflexivity|]. split; [discriminate|].
  intros fuel. cbn [rawunz]. replace (raw_read _ _ _ _ _ _) with (Some (Ok (@nil Z), mkRaw unit (mkStream [7] 8196) tt [] 0)) by (vm_compute; reflexivity). reflexivity.
Qed.
Print Assumptions C64_ends_early_refuted.

(** A read may give less than asked for although more follows. *)
Theorem C64_short_read_refuted : exists b d r, raw_read unit (fun s l => Some (l, s)) (fun s => ([], s)) 3 (open_raw unit tt (open_bytes b)) (zlen b) = Some (Ok d, r) /\
  zlen d < zlen b /\ s_rest (r_stream unit r) <> [].
Proof.
  exists (repeat 1 (Z.to_nat 8197)). eexists. eexists. split; [vm_compute; reflexivity|]. split; [vm_compute; reflexivity|]. vm_compute. discriminate.
Qed.
Print Assumptions C64_short_read_refuted.

Example C64_case : incremental toy_feed /\ productive toy_feed None 8196 [2; 65; 3; 66] /\
  rawunz _ toy_feed (fun s => ([], s)) 8 (open_raw _ None (open_bytes [2; 65; 3; 66])) 2 = ([[65; 65]; [66; 66]; [66]], Finished).
Proof.
  split; [exact toy_incremental|]. split; [|vm_compute; reflexivity].
  intros a c r o1 s1 s2 E HC HR _ _. exfalso. apply (f_equal zlen) in E. rewrite !zlen_app, HC in E. change (zlen [2; 65; 3; 66]) with 4 in E.
  pose proof (zlen_nonneg _ a). pose proof (zlen_nonneg _ r). lia.
Qed.
