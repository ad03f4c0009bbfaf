(** Specification of hwp5odt as a command. *)
From Coq Require Import ZArith String List Bool.
From Verif Require Import Base Model_Storage Model_Odt Spec_Odt.
Import ListNotations.
Open Scope string_scope.
Open Scope list_scope.
Open Scope Z_scope.

(** The streams in the storage BinData of a file, with their contents; none if
    there is no such storage. *)
Inductive images_of (x : item) : list (name * list Z) -> Prop :=
| im_none : snd (iter x) = Finished -> ~ In (zs "BinData") (fst (iter x)) -> images_of x []
| im_some : forall y l, In (zs "BinData") (fst (iter x)) -> get x (zs "BinData") = Ok y -> iter y = (map fst l, Finished) ->
    Forall (fun s => exists z, get y (fst s) = Ok z /\ open z = Ok (snd s)) l -> images_of x l.

(** The files of a package: path, media type and contents. *)
Definition package_files (styles content : list Z) (images : list (name * list Z)) : list (list Z * list Z * list Z) :=
  [(zs "styles.xml", zs "text/xml", styles); (zs "content.xml", zs "text/xml", content); (zs "manifest.rdf", zs "application/rdf+xml", lines rdf_lines)]
  ++ map (fun s => (zs "bindata/" ++ fst s, zs "application/octet-stream", snd s)) images.

(** Names that can be stored, whatever else is in the storage *)
Definition names_storable (l : list name) : Prop := Forall (fun n => Forall Spec_XmlText.xml_char n /\ zlen n <= 16375) l.
Definition bindata_named (x : item) : Prop := forall y, get x (zs "BinData") = Ok y -> names_storable (fst (iter y)).


(** A conversion that breaks off with an exception, having put these files into
    the package: making the XML fails; a style sheet fails; BinData cannot be
    got; a stream in it cannot be got or read; its names cannot be listed. *)
Inductive breaks_off (xml : item -> res (list Z)) (styles content : list Z -> list Z * option exn) (x : item) : list (list Z * list Z * list Z) -> exn -> Prop :=
| br_xml : forall e, xml x = Raise e -> breaks_off xml styles content x [] e
| br_styles : forall t a e, xml x = Ok t -> styles t = (a, Some e) -> breaks_off xml styles content x [] e
| br_content : forall t a b e, xml x = Ok t -> styles t = (a, None) -> content t = (b, Some e) -> breaks_off xml styles content x [(zs "styles.xml", zs "text/xml", a)] e
| br_storage : forall t a b e, xml x = Ok t -> styles t = (a, None) -> content t = (b, None) -> In (zs "BinData") (fst (iter x)) -> get x (zs "BinData") = Raise e ->
    breaks_off xml styles content x (package_files a b []) e
| br_stream : forall t a b y l n rest o e, xml x = Ok t -> styles t = (a, None) -> content t = (b, None) -> In (zs "BinData") (fst (iter x)) -> get x (zs "BinData") = Ok y ->
    iter y = (map fst l ++ n :: rest, o) -> Forall (fun s => exists z, get y (fst s) = Ok z /\ open z = Ok (snd s)) l ->
    get y n = Raise e \/ (exists z, get y n = Ok z /\ open z = Raise e) -> breaks_off xml styles content x (package_files a b l) e
| br_names : forall t a b y l e, xml x = Ok t -> styles t = (a, None) -> content t = (b, None) -> In (zs "BinData") (fst (iter x)) -> get x (zs "BinData") = Ok y ->
    iter y = (map fst l, Failed e) -> Forall (fun s => exists z, get y (fst s) = Ok z /\ open z = Ok (snd s)) l -> breaks_off xml styles content x (package_files a b l) e.
