(** C56: ODT packages. *)
From Coq Require Import ZArith String List Bool Lia.
From Verif Require Import Base BaseFacts Model_XmlText Spec_XmlText Model_Odt Spec_Odt Proof_XmlText Proof_Odt.
Import ListNotations.
Open Scope string_scope.
Open Scope list_scope.
Open Scope Z_scope.

(** Whatever is inserted, in whatever order, and whichever sources cannot be
    read: after close() the archive holds exactly the files that could be read,
    in order of insertion, then the manifest and the mimetype, and the manifest
    is read as exactly these files. *)
Theorem C56_package : forall l, Forall storable_insertion l ->
  exists before after, history l new_package = (map outcome_of l, before) /\ package_close before = (Ok tt, after) /\
    finished_package (readable l) (k_entries after) /\ k_closed after = true.
Proof. exact history_package. Qed.
Print Assumptions C56_package.

(** A reader of the archive finds under a path what was inserted last. *)
Theorem C56_file : forall files entries path media data before later, finished_package files entries ->
  files = before ++ (path, media, data) :: later ->
  ~ In path (map (fun f => fst (fst f)) later) -> path <> zs "META-INF/manifest.xml" -> path <> zs "mimetype" ->
  unzip path entries = Some data.
Proof. exact finished_lookup. Qed.
Print Assumptions C56_file.

Theorem C56_manifest : forall files entries, finished_package files entries ->
  exists m, unzip (zs "META-INF/manifest.xml") entries = Some m /\ denotes m (manifest_events (map fst files)).
Proof. exact finished_manifest. Qed.
Print Assumptions C56_manifest.

Theorem C56_mimetype : forall files entries, finished_package files entries ->
  unzip (zs "mimetype") entries = Some (zs "application/vnd.oasis.opendocument.text").
Proof. exact finished_mimetype. Qed.
Print Assumptions C56_mimetype.

(** A conversion, failing at any point: the package is a finished one with the
    files written so far, and the exception is the one that stopped it. *)
Theorem C56_conversion : forall xml styles content bindata, bindata_storable bindata ->
  let files := match xml with Ok _ => fst (until_failure (intended styles content bindata)) | Raise _ => [] end in
  let result := match xml with Ok _ => snd (until_failure (intended styles content bindata)) | Raise e => Raise e end in
  exists p, convert_to_package xml styles content bindata = (result, p) /\ finished_package files (k_entries p) /\ k_closed p = true.
Proof. exact conversion_package. Qed.
Print Assumptions C56_conversion.

(** An insertion that raises changes nothing; a closed package refuses
    everything. *)
Theorem C56_failed_insertion : forall read path media p e p', insert_stream read path media p = (Raise e, p') -> p' = p.
Proof. exact failed_insertion. Qed.
Print Assumptions C56_failed_insertion.

Theorem C56_closed : forall p, k_closed p = true ->
  (forall data path media, insert_stream (Ok data) path media p = (Raise ValueError, p)) /\ package_close p = (Raise ValueError, p).
Proof. exact closed_refuses. Qed.
Print Assumptions C56_closed.

Theorem C56_surrogate : forall data path media p, (exists c, In c path /\ 0xd800 <= c < 0xe000) -> ~ In 0 path ->
  exists e, insert_stream (Ok data) path media p = (Raise e, p).
Proof. exact surrogate_refused. Qed.
Print Assumptions C56_surrogate.

(** ODF 1.2 wants the mimetype first; a converted document has it last. *)
Theorem C56_mimetype_first_refuted : forall styles content bindata, bindata_storable bindata ->
  exists p e r, convert_to_package (Ok tt) (Ok styles) content bindata = (snd (until_failure (intended (Ok styles) content bindata)), p) /\
    k_entries p = e :: r /\ fst e = zs "styles.xml".
Proof.
  intros styles content bindata H. destruct (conversion_package (Ok tt) (Ok styles) content bindata H) as (p & E & (m & F & _) & _).
  cbv zeta in E, F. exists p. revert E F. cbn [intended app until_failure]. destruct content as [c|e].
  - destruct (until_failure _) as [f o]. cbn [fst snd map app]. intros E F. do 2 eexists. split; [exact E|]. split; [exact F|reflexivity].
  - cbn [fst snd map app]. intros E F. do 2 eexists. split; [exact E|]. split; [exact F|reflexivity].
Qed.
Print Assumptions C56_mimetype_first_refuted.

(** A path with a NUL is stored under another name than the manifest lists, and
    the manifest cannot be read. *)
Theorem C56_nul_refuted : exists path before after, insert_stream (Ok [1]) path (zs "text/xml") new_package = (Ok tt, before) /\
  package_close before = (Ok tt, after) /\ ~ In path (map fst (k_entries after)) /\
  forall es, ~ denotes (manifest_xml (k_files before)) es.
Proof.
  exists [97; 0; 98]. do 2 eexists. split; [reflexivity|]. split; [reflexivity|]. split.
  - intros [H|[H|[H|[]]]]; discriminate H.
  - intros es (body & text & E & D & R).
    assert (B : body = skipn (length xml_declaration) (manifest_xml [([97; 0; 98], zs "text/xml")])).
    { cbn [k_files app insert_stream] in E. change (manifest_xml [([97; 0; 98], zs "text/xml")] = xml_declaration ++ body) in E.
      rewrite E, skipn_app, skipn_all, Nat.sub_diag. reflexivity. }
    rewrite B in D. vm_compute in D. injection D as D. rewrite <- D in R. vm_compute in R. discriminate R.
Qed.
Print Assumptions C56_nul_refuted.

Example C56_case :
  let l := [mkInsertion (zs "a&.xml") (zs "text/xml") (Ok [1; 2]); mkInsertion (zs "b") (zs "text/xml") (Raise IOError);
            mkInsertion (zs "a&.xml") (zs "x/y") (Ok [3])] in
  Forall storable_insertion l /\
  map fst (k_entries (snd (package_close (snd (history l new_package))))) =
    [zs "a&.xml"; zs "a&.xml"; zs "META-INF/manifest.xml"; zs "mimetype"] /\
  unzip (zs "a&.xml") (k_entries (snd (package_close (snd (history l new_package))))) = Some [3] /\
  fst (convert_to_package (Ok tt) (Ok [1]) (Ok [2]) (Some [(zs "BIN0001.jpg", Ok [7]); (zs "BIN0002.jpg", Raise ZlibError)])) = Raise ZlibError /\
  map fst (k_entries (snd (convert_to_package (Ok tt) (Ok [1]) (Ok [2]) (Some [(zs "BIN0001.jpg", Ok [7]); (zs "BIN0002.jpg", Raise ZlibError)])))) =
    [zs "styles.xml"; zs "content.xml"; zs "manifest.rdf"; zs "bindata/BIN0001.jpg"; zs "META-INF/manifest.xml"; zs "mimetype"].
Proof.
  cbv zeta. split.
  - repeat apply Forall_cons; try apply Forall_nil; (split; [split; [chars|vm_compute; discriminate]|chars]).
  - repeat split; vm_compute; reflexivity.
Qed.
