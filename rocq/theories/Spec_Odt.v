(** What an ODT package should contain, in terms of the insertions made. *)
From Coq Require Import ZArith String List Bool.
From Verif Require Import Base Model_XmlText Spec_XmlText Model_Odt.
Import ListNotations.
Open Scope string_scope.
Open Scope list_scope.
Open Scope Z_scope.

(** An insertion: path, media type and what reading the source gives. *)
Record insertion : Type := mkInsertion { n_path : list Z; n_media : list Z; n_data : res (list Z) }.

(** Paths that can be stored and listed as they are: characters that XML can
    represent, and so few that the UTF-8 form cannot exceed 65535 bytes. *)
Definition storable (path : list Z) : Prop := Forall xml_char path /\ zlen path <= 16383.
Definition storable_insertion (i : insertion) : Prop := storable (n_path i) /\ Forall xml_char (n_media i).

(** A sequence of insertions by a caller who goes on after an exception, with
    the result of each. *)
Fixpoint history (l : list insertion) (p : package) : list (res unit) * package :=
  match l with
  | [] => ([], p)
  | i :: r => let (x, p1) := insert_stream (n_data i) (n_path i) (n_media i) p in
              let (xs, p2) := history r p1 in (x :: xs, p2)
  end.

(** An insertion fails as reading its source does. *)
Definition outcome_of (i : insertion) : res unit := match n_data i with Ok _ => Ok tt | Raise e => Raise e end.

(** The insertions whose source could be read. *)
Fixpoint readable (l : list insertion) : list (list Z * list Z * list Z) :=
  match l with
  | [] => []
  | mkInsertion path media (Ok data) :: r => (path, media, data) :: readable r
  | _ :: r => readable r
  end.

(** The elements of META-INF/manifest.xml (ODF 1.2 part 3, 4): the package
    itself, then every file in order. *)
Definition attribute (n v : string) : list Z * list Z := (zs n, zs v).
Definition entry_events (path media : list Z) (version : list (list Z * list Z)) : list xevent :=
  [XStart (zs "manifest:file-entry") ([(zs "manifest:media-type", media); (zs "manifest:full-path", path)] ++ version);
   XEnd (zs "manifest:file-entry")].
Definition manifest_events (files : list (list Z * list Z)) : list xevent :=
  [XStart (zs "manifest:manifest")
     [attribute "xmlns:manifest" "urn:oasis:names:tc:opendocument:xmlns:manifest:1.0"; attribute "manifest:version" "1.2"]]
  ++ entry_events (zs "/") (zs "application/vnd.oasis.opendocument.text") [attribute "manifest:version" "1.2"]
  ++ flat_map (fun f => entry_events (fst f) (snd f) []) files
  ++ [XEnd (zs "manifest:manifest")].

(** A document denotes events: the declaration, then UTF-8 text read as them. *)
Definition denotes (doc : list Z) (es : list xevent) : Prop :=
  exists body text, doc = xml_declaration ++ body /\ utf8_decode body = Some text /\ xml_read text = Some es.

(** The names and contents of a finished package for the files (path, media
    type, content). *)
Definition finished_package (files : list (list Z * list Z * list Z)) (entries : list (list Z * list Z)) : Prop :=
  exists manifest,
    entries = map (fun f => (fst (fst f), snd f)) files
              ++ [(zs "META-INF/manifest.xml", manifest); (zs "mimetype", zs "application/vnd.oasis.opendocument.text")] /\
    denotes manifest (manifest_events (map fst files)).

(** What a zip reader finds under a name: the last entry of that name. *)
Fixpoint unzip (name : list Z) (entries : list (list Z * list Z)) : option (list Z) :=
  match entries with
  | [] => None
  | (n, d) :: r => match unzip name r with Some x => Some x | None => if leqb n name then Some d else None end
  end.

(** The RDF description naming the two main files. *)
Definition rdf_lines : list (list Z) :=
  [zs "<?xml version=""1.0"" encoding=""utf-8""?>";
   zs "<rdf:RDF";
   zs "    xmlns:rdf=""http://www.w3.org/1999/02/22-rdf-syntax-ns#""";
   zs "    xmlns:pkg=""http://docs.oasis-open.org/ns/office/1.2/meta/pkg#""";
   zs "    xmlns:odf=""http://docs.oasis-open.org/ns/office/1.2/meta/odf#"">";
   zs "    <pkg:Document rdf:about="""">";
   zs "        <pkg:hasPart rdf:resource=""content.xml""/>";
   zs "        <pkg:hasPart rdf:resource=""styles.xml""/>";
   zs "    </pkg:Document>";
   zs "    <odf:ContentFile rdf:about=""content.xml""/>";
   zs "    <odf:StylesFile rdf:about=""styles.xml""/>";
   zs "</rdf:RDF>"].
Fixpoint lines (l : list (list Z)) : list Z :=
  match l with [] => [] | [x] => x | x :: r => x ++ [10] ++ lines r end.

(** The files a conversion intends to put in the package, in order. *)
Definition intended (styles content : res (list Z)) (bindata : option (list (list Z * res (list Z)))) : list insertion :=
  [mkInsertion (zs "styles.xml") (zs "text/xml") styles;
   mkInsertion (zs "content.xml") (zs "text/xml") content;
   mkInsertion (zs "manifest.rdf") (zs "application/rdf+xml") (Ok (lines rdf_lines))]
  ++ map (fun s => mkInsertion (zs "bindata/" ++ fst s) (zs "application/octet-stream") (snd s))
         (match bindata with Some l => l | None => [] end).

(** The names of the streams of BinData can be stored. *)
Definition bindata_storable (bindata : option (list (list Z * res (list Z)))) : Prop :=
  match bindata with None => True | Some l => Forall (fun s => Forall xml_char (fst s) /\ zlen (fst s) <= 16375) l end.

(** The files before the first unreadable source, which ends the conversion. *)
Fixpoint until_failure (l : list insertion) : list (list Z * list Z * list Z) * res unit :=
  match l with
  | [] => ([], Ok tt)
  | mkInsertion path media (Ok data) :: r => let (f, o) := until_failure r in ((path, media, data) :: f, o)
  | mkInsertion _ _ (Raise e) :: _ => ([], Raise e)
  end.
