(** C91: what hwp5odt leaves behind. *)
From Coq Require Import ZArith String List Bool Lia.
From Verif Require Import Base BaseFacts Model_Text Model_Storage Model_Filestructure Model_Convert Model_Odt Model_OdtMain Spec_Storage Spec_Convert Spec_Odt Spec_OdtMain.
From Verif Require Import Proof_Storage Proof_Convert Proof_OdtMain.
Import ListNotations.
Open Scope string_scope.
Open Scope list_scope.
Open Scope Z_scope.

(** A file that is not opened: nothing is written or removed. *)
Theorem C91_refused : forall e xml document styles content archive m embed no_embed output hwp5path cwd f,
  odt_main (Raise e) xml document styles content archive m embed no_embed output hwp5path cwd f = (f, [], handled (Raise e)).
Proof. intros e xml document styles content archive [] embed no_embed output hwp5path cwd f; reflexivity. Qed.
Print Assumptions C91_refused.

(** The package has exactly the two documents, the metadata and every stream of
    BinData; what was there before is gone; all else is as before. *)
Theorem C91_package : forall xml document styles content archive x embed no_embed output hwp5path cwd q f t a b images,
  bindata_named x -> fs_resolve f cwd (odt_dest output hwp5path) = Ok q -> fs_lookup f q <> Some Dir ->
  xml embed x = Ok t -> styles t = (a, None) -> content t = (b, None) -> images_of x images ->
  exists f' entries, odt_main (Ok x) xml document styles content archive Package embed no_embed output hwp5path cwd f = (f', [], Exit 0) /\
    fs_lookup f' q = Some (File (archive entries)) /\ finished_package (package_files a b images) entries /\ (forall p, p <> q -> fs_lookup f' p = fs_lookup f p).
Proof. exact package_made. Qed.
Print Assumptions C91_package.

(** A conversion that breaks off leaves a package all the same, with the files
    stored until then, and nothing else changes. *)
Theorem C91_broken : forall xml document styles content archive x embed no_embed output hwp5path cwd q f files e,
  bindata_named x -> fs_resolve f cwd (odt_dest output hwp5path) = Ok q -> fs_lookup f q <> Some Dir -> breaks_off (xml embed) styles content x files e ->
  exists f' entries, odt_main (Ok x) xml document styles content archive Package embed no_embed output hwp5path cwd f = (f', [], handled (Raise e)) /\
    fs_lookup f' q = Some (File (archive entries)) /\ finished_package files entries /\ (forall p, p <> q -> fs_lookup f' p = fs_lookup f p).
Proof. exact package_broken. Qed.
Print Assumptions C91_broken.

(** A path where no file can be made: nothing changes. *)
Theorem C91_unwritable : forall xml document styles content archive x embed no_embed output hwp5path cwd f,
  (forall q, fs_resolve f cwd (odt_dest output hwp5path) = Ok q -> fs_lookup f q = Some Dir) ->
  exists e, odt_main (Ok x) xml document styles content archive Package embed no_embed output hwp5path cwd f = (f, [], handled (Raise e)).
Proof.
  intros xml document styles content archive x embed no_embed output hwp5path cwd f H. unfold odt_main, package_main, fs_write.
  destruct (fs_resolve f cwd (odt_dest output hwp5path)) as [q|e]; [rewrite (H q eq_refl)|]; eexists; reflexivity.
Qed.
Print Assumptions C91_unwritable.

(** With --output the package is that file.  Without it (or with an empty name)
    it is in the current directory and has the name of the input with its
    extension replaced by .odt. *)
Theorem C91_default : forall output d b, ~ In 47 b -> (d = [] \/ exists d', d = d' ++ [47]) ->
  match output with
  | Some p => p <> [] -> odt_dest output (d ++ b) = p
  | None => True
  end /\ (output = None \/ output = Some [] -> exists s, stem_of b s /\ odt_dest output (d ++ b) = s ++ zs ".odt").
Proof. exact odt_dest_is. Qed.
Print Assumptions C91_default.

(** Without --output the input is never touched, unless its name ends with
    .odt itself, whether or not the conversion fails. *)
Theorem C91_input_kept : forall opened xml document styles content archive embed no_embed cwd hwp5path d b f,
  names_path cwd hwp5path (d ++ [b]) -> (forall c, b <> c ++ zs ".odt") ->
  fs_lookup (fst (fst (odt_main opened xml document styles content archive Package embed no_embed None hwp5path cwd f))) (d ++ [b]) = fs_lookup f (d ++ [b]).
Proof. exact input_kept. Qed.
Print Assumptions C91_input_kept.

(** A single document goes to the file of --output, or to standard output.
    --document has the images in it unless --no-embed-image is given, --styles
    and --content only with --embed-image. *)
Theorem C91_single_file : forall xml document styles content archive m images transform embed no_embed x out err p hwp5path cwd q f,
  In (m, images, transform) [(Document, negb no_embed, document); (Styles, embed, styles); (Content, embed, content)] ->
  ((exists t, xml images x = Ok t /\ transform t = (out, err)) \/ (exists e, xml images x = Raise e /\ out = [] /\ err = Some e)) ->
  fs_resolve f cwd p = Ok q -> fs_lookup f q <> Some Dir ->
  exists f', odt_main (Ok x) xml document styles content archive m embed no_embed (Some p) hwp5path cwd f = (f', [], handled (match err with Some e => Raise e | None => Ok tt end)) /\
    fs_lookup f' q = Some (File out) /\ (forall r, r <> q -> fs_lookup f' r = fs_lookup f r).
Proof.
  intros xml document styles content archive m images transform embed no_embed x out err p hwp5path cwd q f HM H HR HD.
  destruct (file_written (xml images) transform x out err p cwd q f H HR HD) as (f' & E & R). exists f'. split; [|exact R]. rewrite <- E.
  destruct HM as [HM|[HM|[HM|[]]]]; injection HM as <- <- <-; reflexivity.
Qed.
Print Assumptions C91_single_file.
Theorem C91_single_stdout : forall xml document styles content archive m images transform embed no_embed x out err output hwp5path cwd f,
  In (m, images, transform) [(Document, negb no_embed, document); (Styles, embed, styles); (Content, embed, content)] ->
  ((exists t, xml images x = Ok t /\ transform t = (out, err)) \/ (exists e, xml images x = Raise e /\ out = [] /\ err = Some e)) ->
  output = None \/ output = Some [] ->
  odt_main (Ok x) xml document styles content archive m embed no_embed output hwp5path cwd f = (f, out, handled (match err with Some e => Raise e | None => Ok tt end)).
Proof.
  intros xml document styles content archive m images transform embed no_embed x out err output hwp5path cwd f HM H HO. rewrite <- (file_stdout (xml images) transform x out err output cwd f H HO).
  destruct HM as [HM|[HM|[HM|[]]]]; injection HM as <- <- <-; reflexivity.
Qed.
Print Assumptions C91_single_stdout.

(** An exit status of 0 does not tell that there is a document in the package,
    and the package that was there before is lost. *)
Theorem C91_status_refuted : exists xml document styles content archive x cwd f f' q before,
  fs_lookup f q = Some (File before) /\ odt_main (Ok x) xml document styles content archive Package false false None (zs "a.hwp") cwd f = (f', [], Exit 0) /\
  exists entries, fs_lookup f' q = Some (File (archive entries)) /\ finished_package [] entries /\ unzip (zs "content.xml") entries = None.
Proof.
  set (f := [([zs "w"; zs "a.odt"], File [7]); ([zs "w"], Dir)]). set (archive := fun l : list (list Z * list Z) => concat (map snd l)).
  destruct (package_broken (fun _ _ => Raise (ParseError (Eof 0) 0)) (fun t => (t, None)) (fun t => (t, None)) (fun t => (t, None)) archive (dir_item DNil) false false None (zs "a.hwp") [zs "w"] [zs "w"; zs "a.odt"] f [] (ParseError (Eof 0) 0)) as (f' & entries & E & L & F & _).
  - intros y HY. discriminate.
  - reflexivity.
  - discriminate.
  - now constructor.
  - exists (fun _ _ => Raise (ParseError (Eof 0) 0)), (fun t => (t, None)), (fun t => (t, None)), (fun t => (t, None)), archive, (dir_item DNil), [zs "w"], f, f', [zs "w"; zs "a.odt"], [7].
    split; [reflexivity|]. split; [exact E|]. exists entries. split; [exact L|]. split; [exact F|]. destruct F as (m & -> & _). reflexivity.
Qed.
Print Assumptions C91_status_refuted.

(** An input with the extension .odt in the current directory is overwritten. *)
Theorem C91_input_kept_refuted : exists xml document styles content archive x hwp5path cwd f b p f' b', fs_lookup f p = Some (File b) /\ fs_resolve f cwd hwp5path = Ok p /\
  odt_main (Ok x) xml document styles content archive Package false false None hwp5path cwd f = (f', [], Exit 0) /\ fs_lookup f' p = Some (File b') /\ b' <> b.
Proof.
  exists (fun _ _ => Ok []), (fun t => (t, None)), (fun t => (t, None)), (fun t => (t, None)), (fun l => concat (map fst l)), (dir_item DNil), (zs "a.odt"), [zs "w"], [([zs "w"; zs "a.odt"], File [7]); ([zs "w"], Dir)], [7], [zs "w"; zs "a.odt"].
  eexists. eexists. split; [reflexivity|]. split; [reflexivity|]. split; [vm_compute; reflexivity|]. split; [vm_compute; reflexivity|discriminate].
Qed.
Print Assumptions C91_input_kept_refuted.

(** A document with an image: the package; the document alone; the package
    after an image that cannot be read *)
Example C91_case :
  let x := dir_item (DDir (zs "BinData") (DFile (zs "BIN0001.png") [9; 9] DNil) (DFile (zs "DocInfo") [1] DNil)) in
  let y := storage_item ([zs "BinData"], Finished) (fun n => Ok (storage_item ([zs "a"; zs "b"], Finished) (fun n => Ok (stream_item (if Spec_XmlText.leqb n (zs "a") then Ok [5] else Raise IOError) [])))) in
  let f := [([zs "w"; zs "in"; zs "a.hwp"], File [7]); ([zs "w"; zs "in"], Dir); ([zs "w"], Dir)] in
  let run x m := odt_main (Ok x) (fun embed _ => Ok [if embed : bool then 1 else 0]) (fun t => (10 :: t, None)) (fun t => (20 :: t, None)) (fun t => (30 :: t, None)) (fun l => concat (map (fun e => fst e ++ [0]) l)) m false false None (zs "in/a.hwp") [zs "w"] f in
  snd (run x Package) = Exit 0 /\ snd (run y Package) = Raised IOError /\
  fs_lookup (fst (fst (run x Package))) [zs "w"; zs "a.odt"] = Some (File (concat (map (fun n => zs n ++ [0]) ["styles.xml"; "content.xml"; "manifest.rdf"; "bindata/BIN0001.png"; "META-INF/manifest.xml"; "mimetype"]%string))) /\
  fs_lookup (fst (fst (run y Package))) [zs "w"; zs "a.odt"] = Some (File (concat (map (fun n => zs n ++ [0]) ["styles.xml"; "content.xml"; "manifest.rdf"; "bindata/a"; "META-INF/manifest.xml"; "mimetype"]%string))) /\
  run x Document = (f, [10; 1], Exit 0) /\ run x Styles = (f, [20; 0], Exit 0) /\ run x Content = (f, [30; 0], Exit 0) /\
  fs_lookup (fst (fst (run x Package))) [zs "w"; zs "in"; zs "a.hwp"] = Some (File [7]) /\
  images_of x [(zs "BIN0001.png", [9; 9])] /\ bindata_named x /\
  breaks_off (fun _ => Ok [0]) (fun t => (20 :: t, None)) (fun t => (30 :: t, None)) y (package_files [20; 0] [30; 0] [(zs "a", [5])]) IOError.
Proof.
  intros x y f run. do 8 (split; [vm_compute; reflexivity|]). split; [|split].
  - eapply im_some; [now left|reflexivity|reflexivity|]. constructor; [|constructor]. eexists. split; reflexivity.
  - intros z HZ. injection HZ as <-. constructor; [|constructor]. split; [|vm_compute; discriminate]. repeat (constructor; [unfold Spec_XmlText.xml_char; lia|]). constructor.
  - eapply (br_stream _ _ _ y [0] [20; 0] [30; 0] _ [(zs "a", [5])] (zs "b") [] Finished); [reflexivity|reflexivity|reflexivity|now left|reflexivity|reflexivity| |].
    + constructor; [|constructor]. eexists. split; reflexivity.
    + right. eexists. split; reflexivity.
Qed.
