(** Model of the ODT package writer: src/hwp5/hwp5odt.py 137-324, 436-440, and
    of what it uses of Python's zipfile and xml.sax.saxutils.XMLGenerator.
    Texts are lists of code points, contents lists of bytes. *)
From Coq Require Import ZArith String List Bool.
From Verif Require Import Base Model_Text Model_XmlText.
Import ListNotations.
Open Scope string_scope.
Open Scope list_scope.
Open Scope Z_scope.

(** zipfile.ZipInfo.__init__: the name is cut at the first NUL character (os.sep
    is '/'). *)
Fixpoint zip_name (path : list Z) : list Z :=
  match path with [] => [] | c :: r => if c =? 0 then [] else c :: zip_name r end.

(** hwp5odt.py 243-252 [ODTPackage.__init__]: the entries of the archive in
    order (an entry is never replaced), [self.files] as (full_path, media_type)
    and whether the archive is closed. *)
Record package : Type := mkPackage {
  k_entries : list (list Z * list Z);
  k_files : list (list Z * list Z);
  k_closed : bool
}.
Definition new_package : package := mkPackage [] [] false.

(** ZipFile.writestr: a ValueError if the archive is closed; the name is written
    in UTF-8 and its length in 16 bits, and nothing is written if either fails.
    An archive over the ZIP64 limits and, in older Pythons, the empty name
    (IndexError) are not modelled; a name already used is only warned about. *)
Definition writestr (name data : list Z) (p : package) : res unit * package :=
  if k_closed p then (Raise ValueError, p)
  else match utf8_encode (zip_name name) with
  | Raise e => (Raise e, p)
  | Ok b => if 65535 <? zlen b then (Raise StructError, p)
            else (Ok tt, mkPackage (k_entries p ++ [(zip_name name, data)]) (k_files p) (k_closed p))
  end.

(** hwp5odt.py 258-262 [insert_stream]; [read] is the outcome of [f.read()].
    Python 3: the path is a str. *)
Definition insert_stream (read : res (list Z)) (path media_type : list Z) (p : package) : res unit * package :=
  match read with
  | Raise e => (Raise e, p)
  | Ok data =>
      match writestr path data p with
      | (Raise e, p') => (Raise e, p')
      | (Ok _, p') => (Ok tt, mkPackage (k_entries p') (k_files p' ++ [(path, media_type)]) (k_closed p'))
      end
  end.

(** hwp5odt.py 254-256 [insert_path]; [read]: opening and reading the file. *)
Definition insert_path (read : res (list Z)) (path media_type : list Z) (p : package) : res unit * package :=
  insert_stream read path media_type p.

(** ** manifest_xml, hwp5odt.py 275-308 *)

(** XMLGenerator._write to a bytes stream in UTF-8 with errors
    'xmlcharrefreplace': what cannot be encoded becomes a character reference. *)
Definition encode_char (c : Z) : list Z :=
  match utf8_char c with Ok b => b | Raise _ => [38; 35] ++ fmt_d c ++ [59] end.
Definition sax_encode (s : list Z) : list Z := flat_map encode_char s.

Definition MANIFEST_URI : list Z := zs "urn:oasis:names:tc:opendocument:xmlns:manifest:1.0".
Definition MANIFEST_PREFIX : list Z := zs "manifest".
(** XMLGenerator._qname for a name in the mapped namespace *)
Definition qname (name : list Z) : list Z := MANIFEST_PREFIX ++ [58] ++ name.

(** XMLGenerator.startDocument *)
Definition sax_start_document : list Z := zs "<?xml version=""1.0"" encoding=""utf-8""?>" ++ [10].
(** XMLGenerator.startElementNS (hwp5odt.py 284-286): undeclared namespace
    mappings first, then the attributes with [quoteattr]. *)
Definition sax_start (undeclared : list (list Z * list Z)) (name : list Z) (attrs : list (list Z * list Z)) : list Z :=
  [60] ++ qname name
  ++ flat_map (fun pu => zs " xmlns:" ++ fst pu ++ [61; 34] ++ snd pu ++ [34]) undeclared
  ++ flat_map (fun nv => [32] ++ qname (fst nv) ++ [61] ++ quoteattr (snd nv)) attrs
  ++ [62].
(** XMLGenerator.endElementNS (hwp5odt.py 288-289) *)
Definition sax_end (name : list Z) : list Z := [60; 47] ++ qname name ++ [62].

(** hwp5odt.py 291-296 [file_entry]; the keyword arguments are (version) or
    nothing. *)
Definition file_entry (full_path media_type : list Z) (kwargs : list (list Z * list Z)) : list Z :=
  sax_start [] (zs "file-entry") ([(zs "media-type", media_type); (zs "full-path", full_path)] ++ kwargs)
  ++ sax_end (zs "file-entry").

Definition ODT_TYPE : list Z := zs "application/vnd.oasis.opendocument.text".

(** hwp5odt.py 275-308 [manifest_xml] *)
Definition manifest_text (files : list (list Z * list Z)) : list Z :=
  sax_start_document
  ++ sax_start [(MANIFEST_PREFIX, MANIFEST_URI)] (zs "manifest") [(zs "version", zs "1.2")]
  ++ file_entry (zs "/") ODT_TYPE [(zs "version", zs "1.2")]
  ++ flat_map (fun e => file_entry (fst e) (snd e) []) files
  ++ sax_end (zs "manifest").
Definition manifest_xml (files : list (list Z * list Z)) : list Z := sax_encode (manifest_text files).

(** hwp5odt.py 264-272 [close] *)
Definition package_close (p : package) : res unit * package :=
  match writestr (zs "META-INF/manifest.xml") (manifest_xml (k_files p)) p with
  | (Raise e, p') => (Raise e, p')
  | (Ok _, p') =>
      match writestr (zs "mimetype") ODT_TYPE p' with
      | (Raise e, p'') => (Raise e, p'')
      | (Ok _, p'') => (Ok tt, mkPackage (k_entries p'') (k_files p'') true)
      end
  end.

(** hwp5odt.py 311-323 [manifest_rdf] *)
Definition manifest_rdf : list Z := zs "<?xml version=""1.0"" encoding=""utf-8""?>
<rdf:RDF
    xmlns:rdf=""http://www.w3.org/1999/02/22-rdf-syntax-ns#""
    xmlns:pkg=""http://docs.oasis-open.org/ns/office/1.2/meta/pkg#""
    xmlns:odf=""http://docs.oasis-open.org/ns/office/1.2/meta/odf#"">
    <pkg:Document rdf:about="""">
        <pkg:hasPart rdf:resource=""content.xml""/>
        <pkg:hasPart rdf:resource=""styles.xml""/>
    </pkg:Document>
    <odf:ContentFile rdf:about=""content.xml""/>
    <odf:StylesFile rdf:about=""styles.xml""/>
</rdf:RDF>".

(** ** The conversion *)

(** The first step that fails ends the conversion. *)
Definition pthen (r : res unit * package) (k : package -> res unit * package) : res unit * package :=
  match r with (Ok _, p) => k p | (Raise e, p) => (Raise e, p) end.

(** hwp5odt.py 180-197 [transform_xhwp5_into_package].  [styles], [content]: the
    files written by the two style sheets (transformed_at_temp_path 235-240), or
    the exception raised by one. *)
Definition transform_xhwp5_into_package (styles content : res (list Z)) (p : package) : res unit * package :=
  pthen (insert_path styles (zs "styles.xml") (zs "text/xml") p) (fun p =>
  pthen (insert_path content (zs "content.xml") (zs "text/xml") p) (fun p =>
  insert_stream (Ok manifest_rdf) (zs "manifest.rdf") (zs "application/rdf+xml") p)).

(** hwp5odt.py 145-151: the loop over the streams of BinData; each with the
    outcome of opening and reading it. *)
Fixpoint insert_bindata (bindata : list (list Z * res (list Z))) (p : package) : res unit * package :=
  match bindata with
  | [] => (Ok tt, p)
  | (name, data) :: r =>
      pthen (insert_stream data (zs "bindata/" ++ name) (zs "application/octet-stream") p) (insert_bindata r)
  end.

(** hwp5odt.py 137-151 [transform_hwp5_to_package]; [xml]: writing the
    intermediate XML; [bindata]: the streams of BinData, [None] without one. *)
Definition transform_hwp5_to_package (xml : res unit) (styles content : res (list Z))
    (bindata : option (list (list Z * res (list Z)))) (p : package) : res unit * package :=
  match xml with
  | Raise e => (Raise e, p)
  | Ok _ => pthen (transform_xhwp5_into_package styles content p) (fun p =>
              match bindata with None => (Ok tt, p) | Some l => insert_bindata l p end)
  end.

(** hwp5odt.py 436-440 [open_odtpkg], used in main 362-366: the package is closed
    whatever happens; an exception of the body is raised again unless closing
    raises another one. *)
Definition convert_to_package (xml : res unit) (styles content : res (list Z))
    (bindata : option (list (list Z * res (list Z)))) : res unit * package :=
  match transform_hwp5_to_package xml styles content bindata new_package with
  | (r, p) => match package_close p with (Raise e, p') => (Raise e, p') | (Ok _, p') => (r, p') end
  end.
