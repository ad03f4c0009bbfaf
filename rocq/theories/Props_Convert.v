(** C82, C83: what hwp5html and hwp5txt leave behind. *)
From Coq Require Import ZArith String List Bool Lia.
From Verif Require Import Base BaseFacts Model_Text Model_Storage Model_Filestructure Model_Convert Spec_Storage Spec_Convert Proof_Storage Proof_Unpack Proof_Convert.
Import ListNotations.
Open Scope Z_scope.

(** ** C46: whatever happens *)

(** If the names of a storage are plain, unpacking changes nothing outside of
    the target, whatever is there before and whether or not it fails. *)
Theorem C46_confined : forall x cwd outbase base f, plain_names x -> ~ In 5 outbase -> last outbase 0 <> 47 -> fs_resolve f cwd outbase = Ok base ->
  forall p, (forall n q, p <> base ++ n :: q) -> fs_lookup (fst (unpack x cwd outbase f)) p = fs_lookup f p.
Proof. exact unpack_stays. Qed.
Print Assumptions C46_confined.
Example C46_confined_case :
  let f := [([zs "w"; zs "out"; zs "a"], File [7]); ([zs "w"; zs "out"], Dir); ([zs "w"], Dir)] in
  let x := storage_item ([zs "a"; zs "b"], Failed IOError) (fun n => Ok (stream_item (Ok [1]) [])) in
  plain_names x /\ fs_lookup (fst (unpack x [zs "w"] (zs "out") f)) [zs "w"; zs "out"; zs "a"] = Some (File [1]) /\ snd (unpack x [zs "w"] (zs "out") f) = Raise IOError.
Proof. split; [|split; vm_compute; reflexivity]. split; [repeat constructor; unfold plain; cbn; intuition discriminate|]. intros n. split; [constructor|]. intros m. exact I. Qed.

(** ** C82 *)

(** A file that is not opened: nothing is removed or written. *)
Theorem C82_refused : forall e xml xhtml css dest cwd f, html_dir_main (Raise e) xml xhtml css dest cwd f = (f, handled (Raise e)).
Proof. reflexivity. Qed.
Print Assumptions C82_refused.

(** The directory has afterwards exactly the pages and the binary data; what
    was there before is gone; all else is as before. *)
Theorem C82_converted : forall xml xhtml css x dest cwd q f t a b bd,
  names_path cwd dest q -> rooted f -> parents f q -> fs_lookup f q = Some Dir \/ fs_lookup f q = None -> ~ In 5 dest ->
  xml x = Ok t -> xhtml t = (a, None) -> css t = (b, None) -> bindata_of x bd ->
  exists f', html_dir_main (Ok x) xml xhtml css dest cwd f = (f', Exit 0) /\ fs_lookup f' q = Some Dir /\
    (forall n p, fs_lookup f' (q ++ n :: p) = at_path (html_contents a b bd) n p) /\ (forall p, ~ within q p -> fs_lookup f' p = fs_lookup f p).
Proof. exact html_converted. Qed.
Print Assumptions C82_converted.

(** Whatever fails, nothing changes outside of the directory. *)
Theorem C82_confined : forall xml xhtml css opened dest cwd q f, names_path cwd dest q -> rooted f -> ~ In 5 dest ->
  (forall x y, opened = Ok x -> get x (zs "BinData") = Ok y -> plain_names y) ->
  forall p, ~ within q p -> fs_lookup (fst (html_dir_main opened xml xhtml css dest cwd f)) p = fs_lookup f p.
Proof. exact html_confined. Qed.
Print Assumptions C82_confined.

(** With --output the directory is that.  Without it (or with an empty name) the
    directory is in the current one and has the name of the file without its
    extension. *)
Theorem C82_default : forall output d b, ~ In 47 b -> (d = [] \/ exists d', d = d' ++ [47]) ->
  match output with
  | Some p => p <> [] -> html_dest output (d ++ b) = p
  | None => True
  end /\ (output = None \/ output = Some [] -> stem_of b (html_dest output (d ++ b))).
Proof. exact html_dest_is. Qed.
Print Assumptions C82_default.

(** hwp5html does not keep the previous pages if the conversion fails, and its
    exit status is then that of a success. *)
Theorem C82_previous_kept_refuted : exists xml xhtml css x dest cwd q f p b, names_path cwd dest q /\ rooted f /\ parents f q /\ fs_lookup f (q ++ p) = Some (File b) /\
  (exists e, xml x = Raise e) /\ snd (html_dir_main (Ok x) xml xhtml css dest cwd f) = Exit 0 /\ fs_lookup (fst (html_dir_main (Ok x) xml xhtml css dest cwd f)) (q ++ p) = None.
Proof.
  set (f := [([zs "w"; zs "out"; zs "index.xhtml"], File [7]); ([zs "w"; zs "out"], Dir); ([zs "w"], Dir)]).
  exists (fun _ => Raise (ParseError (Eof 0) 0)), (fun t => (t, None)), (fun t => (t, None)), (dir_item DNil), (zs "out"), [zs "w"], [zs "w"; zs "out"], f, [zs "index.xhtml"], [7].
  split; [apply (np_relative [zs "w"] [zs "out"]); [discriminate|]; constructor; [unfold plain; cbn; intuition discriminate|constructor]|].
  split; [apply rooted_check; reflexivity|].
  split.
  { intros a b HE HB. destruct a as [|a1 [|a2 [|a3 a]]]; [reflexivity| | |]; cbn [app] in HE.
    - injection HE as <- _. reflexivity.
    - injection HE as <- <- _. reflexivity.
    - discriminate. }
  split; [reflexivity|]. split; [eexists; reflexivity|]. split; vm_compute; reflexivity.
Qed.
Print Assumptions C82_previous_kept_refuted.

(** hwp5html removes the file it converts, and all else in the directory, if
    that is in a directory of its own name: hwp5html doc/doc.hwp. *)
Theorem C82_input_kept_refuted : exists xml xhtml css x hwp5path cwd f b p c, fs_lookup f p = Some (File b) /\ fs_resolve f cwd hwp5path = Ok p /\
  html_dir_main (Ok x) xml xhtml css (html_dest None hwp5path) cwd f = (c, Exit 0) /\ fs_lookup c p = None.
Proof.
  exists (fun _ => Ok []), (fun t => (t, None)), (fun t => (t, None)), (dir_item DNil), (zs "doc/doc.hwp"), [zs "w"], [([zs "w"; zs "doc"; zs "doc.hwp"], File [7]); ([zs "w"; zs "doc"], Dir); ([zs "w"], Dir)], [7], [zs "w"; zs "doc"; zs "doc.hwp"].
  eexists. repeat split; vm_compute; reflexivity.
Qed.
Print Assumptions C82_input_kept_refuted.

(** The names in the document decide where files are written: one that is not
    plain can be outside of the directory. *)
Theorem C82_escape_refuted : exists xml xhtml css x dest cwd q f p c, names_path cwd dest q /\ fs_lookup f q = None /\ ~ within q p /\
  html_dir_main (Ok x) xml xhtml css dest cwd f = (c, Exit 0) /\ fs_lookup c p <> fs_lookup f p.
Proof.
  exists (fun _ => Ok []), (fun t => (t, None)), (fun t => (t, None)), (dir_item (DDir (zs "BinData") (DDir (zs "..") (DDir (zs "..") (DFile (zs "x") [1] DNil) DNil) DNil) DNil)), (zs "out"), [zs "w"], [zs "w"; zs "out"], [([zs "w"], Dir)], [zs "w"; zs "x"].
  eexists. split; [apply (np_relative [zs "w"] [zs "out"]); [discriminate|]; constructor; [unfold plain; cbn; intuition discriminate|constructor]|].
  split; [reflexivity|]. split; [intros (r & HR); discriminate|]. split; [vm_compute; reflexivity|vm_compute; discriminate].
Qed.
Print Assumptions C82_escape_refuted.

Example C82_case :
  let x := dir_item (DDir (zs "BinData") (DFile (zs "BIN0001.png") [9; 9] DNil) (DFile (zs "DocInfo") [1] DNil)) in
  let f := [([zs "w"; zs "out"; zs "old"], File [7]); ([zs "w"; zs "out"], Dir); ([zs "w"; zs "mine"], File [8]); ([zs "w"], Dir)] in
  let r := html_dir_main (Ok x) (fun _ => Ok [3]) (fun t => (1 :: t, None)) (fun t => (2 :: t, None)) (zs "out") [zs "w"] f in
  (rooted f /\ bindata_of x (Some (DFile (zs "BIN0001.png") [9; 9] DNil))) /\
  snd r = Exit 0 /\ fs_lookup (fst r) [zs "w"; zs "out"; zs "old"] = None /\ fs_lookup (fst r) [zs "w"; zs "mine"] = Some (File [8]) /\
  fs_lookup (fst r) [zs "w"; zs "out"; zs "index.xhtml"] = Some (File [1; 3]) /\ fs_lookup (fst r) [zs "w"; zs "out"; zs "styles.css"] = Some (File [2; 3]) /\
  fs_lookup (fst r) [zs "w"; zs "out"; zs "bindata"; zs "BIN0001.png"] = Some (File [9; 9]) /\ html_dest None (zs "a.b/c.d.hwp") = zs "c.d".
Proof.
  split; [|repeat split; vm_compute; reflexivity]. split; [apply rooted_check; vm_compute; reflexivity|].
  apply (bd_some _ (dir_item (DFile (zs "BIN0001.png") [9; 9] DNil))); [cbn; now left|reflexivity|apply dir_item_represents; cbn; tauto|cbn; unfold plain; cbn; intuition discriminate|cbn; tauto|cbn; tauto].
Qed.

(** ** C83 *)

(** A file that is not opened: nothing is written and no file is made. *)
Theorem C83_refused : forall e xml transform output cwd f, file_main (Raise e) xml transform output cwd f = (f, [], handled (Raise e)).
Proof. reflexivity. Qed.
Print Assumptions C83_refused.

(** The file has exactly what the conversion wrote, up to where it failed; all
    else is as before. *)
Theorem C83_file : forall xml transform x out err p cwd q f,
  ((exists t, xml x = Ok t /\ transform t = (out, err)) \/ (exists e, xml x = Raise e /\ out = [] /\ err = Some e)) ->
  fs_resolve f cwd p = Ok q -> fs_lookup f q <> Some Dir ->
  exists f', file_main (Ok x) xml transform (Some p) cwd f = (f', [], handled (match err with Some e => Raise e | None => Ok tt end)) /\
    fs_lookup f' q = Some (File out) /\ (forall r, r <> q -> fs_lookup f' r = fs_lookup f r).
Proof. exact file_written. Qed.
Print Assumptions C83_file.

(** A path where no file can be made: nothing changes. *)
Theorem C83_unwritable : forall xml transform x p cwd f, p <> [] -> (forall q, fs_resolve f cwd p = Ok q -> fs_lookup f q = Some Dir) ->
  exists e, file_main (Ok x) xml transform (Some p) cwd f = (f, [], handled (Raise e)).
Proof. exact file_unwritable. Qed.
Print Assumptions C83_unwritable.

(** Without --output all goes to standard output, and no file changes. *)
Theorem C83_stdout : forall xml transform x out err output cwd f,
  ((exists t, xml x = Ok t /\ transform t = (out, err)) \/ (exists e, xml x = Raise e /\ out = [] /\ err = Some e)) ->
  output = None \/ output = Some [] ->
  file_main (Ok x) xml transform output cwd f = (f, out, handled (match err with Some e => Raise e | None => Ok tt end)).
Proof. exact file_stdout. Qed.
Print Assumptions C83_stdout.

(** The exit status tells an invalid file from all else, but not a conversion
    that broke off with a parse error from one that succeeded. *)
Theorem C83_status : forall r, match handled r with
  | Exit c => (c = 0 /\ (r = Ok tt \/ exists e o, r = Raise (ParseError e o))) \/ (c = 1 /\ r = Raise InvalidHwp5File)
  | Raised e => r = Raise e /\ e <> InvalidHwp5File /\ forall e' o, e <> ParseError e' o
  end.
Proof. exact handled_spec. Qed.
Print Assumptions C83_status.

(** A file that is already there is lost if the conversion fails. *)
Theorem C83_previous_kept_refuted : exists xml transform x p cwd q f b, fs_resolve f cwd p = Ok q /\ fs_lookup f q = Some (File b) /\ b <> [] /\
  (exists e, xml x = Raise e) /\ exists c, file_main (Ok x) xml transform (Some p) cwd f = (c, [], Exit 0) /\ fs_lookup c q = Some (File []).
Proof.
  exists (fun _ => Raise (ParseError (Eof 0) 0)), (fun t => (t, None)), (dir_item DNil), (zs "a.txt"), [zs "w"], [zs "w"; zs "a.txt"], [([zs "w"; zs "a.txt"], File [7]); ([zs "w"], Dir)], [7].
  split; [reflexivity|]. split; [reflexivity|]. split; [discriminate|]. split; [eexists; reflexivity|]. eexists. split; vm_compute; reflexivity.
Qed.
Print Assumptions C83_previous_kept_refuted.

Example C83_case :
  let x := dir_item DNil in let f := [([zs "w"], Dir)] in
  let run o e := file_main (Ok x) (fun _ => Ok [3]) (fun t => (1 :: t, e)) o [zs "w"] f in
  run None None = (f, [1; 3], Exit 0) /\ run (Some (zs "a.txt")) None = (([zs "w"; zs "a.txt"], File [1; 3]) :: f, [], Exit 0) /\
  run (Some (zs "a.txt")) (Some IOError) = (([zs "w"; zs "a.txt"], File [1; 3]) :: f, [], Raised IOError) /\
  run (Some (zs "no/a.txt")) None = (f, [], Raised IOError) /\ file_main (Raise InvalidHwp5File) (fun _ => Ok []) (fun t => (t, None)) (Some (zs "a.txt")) [zs "w"] f = (f, [], Exit 1).
Proof. repeat split; vm_compute; reflexivity. Qed.
