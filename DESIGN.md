# Formal model of pyhwp in Rocq (Coq 8.16.1)

`/repo` (pyhwp) parses HWP v5 documents: an OLE compound file whose streams
hold tagged records, which are decoded into typed models, rearranged by a chain
of event passes and printed as XML.  This directory holds a Gallina model of
that code, written function by function, and theorems about it.

## Conventions

* Python code is modelled by total, computable Gallina functions.  Every
  definition in a `Model_*.v` file carries a comment naming the file and lines
  it models; every simplification is stated there.
* Bytes and code points are `Z`; byte strings and texts are `list Z`; a stream
  is its remaining bytes plus a position; Python exceptions are values
  (`Raise e`).  A generator is modelled by the list it yields together with the
  exception that ended it, if any.
* Loops that Python leaves unbounded are modelled by structural recursion where
  possible, otherwise by fuel that is proved to be sufficient (the out-of-fuel
  value is a separate constructor and is excluded by theorem).
* External code (zlib, AES, the operating system) appears as function
  arguments, never as axioms.
* `Spec_*.v` files contain small specifications written without looking at the
  model's helpers (trees, bit tests, sorted lists, concatenation ...).
* `Proof_*.v` files contain the lemmas, `Props_*.v` files only the property
  theorems (each closed by `exact`), a non-vacuity `Example` next to each, and
  `Print Assumptions`.

## Files

Every area has `Model_X.v` (the code), `Spec_X.v` (independent statements),
`Proof_*.v` (lemmas) and `Props_X.v` (theorems).  `Base.v` and `BaseFacts.v`
hold the common types (results, generators, streams) and list facts.

| area | models | claims |
|------|--------|--------|
| Record | `recordstream.py`, `tagids.py` | C01-C06, C55, C59 |
| Tree | `treeop.py` | C07-C11 |
| Dataio, Text | `dataio.py` (primitives, flags, enumerations, hex dump, BSTR), `COLORREF`; number formatting and UTF-16 | C12-C15, C41, C53, C60 |
| Bintype | `bintype.py`, layout declarations of `dataio.py` | C16-C20 |
| ParaText | `binmodel/controlchar.py`, `tagid51_para_text.py` | C21, C22 |
| Shape | `xmlmodel.py` 94-162 | C23-C25 |
| Lang | `charsets.py` | C26 |
| XmlModel, Section | the event passes of `xmlmodel.py` | C27-C34, C62 |
| XmlText | `xmlformat.py` 241-269, `xml.sax.saxutils` | C35, C36 |
| Embed | `xmlmodel.py` 518-545, base64 | C37 |
| Distdoc | `distdoc.py` | C38 |
| Readers | generator readers and JSON of `utils.py`, `proc/cat.py` | C39, C40 |
| Resource | `utils.py` (cached properties, temporary files, cascades), `plat/__init__.py`, `transforms/__init__.py`, parts of `_lxml.py`, `hwp5odt.py` | C42, C43, C58, C61 |
| Storage | `storage/__init__.py`, `storage/ole.py`, `plat/olefileio.py`, `proc/unpack.py` | C44-C47 |
| Compressed, Filestructure | `compressed.py`, `zlib_raw_codec.py`, `proc/rawunz.py`, `filestructure.py` | C48-C50, C52, C63, C64 |
| Oleprops | `msoleprops.py`, `summaryinfo.py`, `HwpSummaryInfo` | C51, C65, C66 |
| Classes, Layouts, Models | all record classes of `binmodel/`, the class registries, `binmodel/__init__.py` 243-549 | C54, C57, C67 |
| Odt | `hwp5odt.py` 137-324, 436-440, what it uses of zipfile and XMLGenerator | C56 |
| XmlElement | `xmlformat.py` 56-239, `dataio.py` 523-588, `DocInfo.events` of `xmlmodel.py` | C68, C69 |
| XmlFile | `Section.events`, `Sections.events`, `HwpSummaryInfo.events` and `Hwp5File.events` of `xmlmodel.py` | C70, C71, C72 |
| Json | `record_to_json`, `records_json`, `model_to_json`, `models_json`, what they use of Python's `json` | C73, C74 |
| Proc | hwp5proc records, models (without --events, --format), find (without --format, --dump), `parse_recordstream_name` | C75-C78 |
| Events | `resolve_models`, `parse_model_events` (binmodel/__init__.py 334-395, 478-495) | C79 |
| Commands | `printstorage` (storage/__init__.py 159-168), proc/ls.py, proc/diststream.py | C80, C81 |
| Converters | hwp5html.py 76-156, 200-206, hwp5txt.py 72-94, `make_open_dest_file` (utils.py 243-260) | C82, C83 |
| Plain text | xsl/plaintext.xsl 38-57 with the XSLT 1.0 rules it uses | C84 |
| Reads with mutable objects | bintype.py 104-325, 356-455 again, with item dicts as objects in a heap and the two caches of compiled layouts | C85 |
| Pages of hwp5html | xsl/hwp5html.xsl, xsl/hwp5css.xsl and xsl/hwp5css-common.xsl on a tree of nodes; lengths (see C89) and `style` attributes are given by functions | C86 |
| Documents of hwp5odt | xsl/odt/common.xsl, content.xsl, styles.xsl and document.xsl on a tree of nodes; lengths (see C89) and the places of drawings are given by functions | C87 |
| From records to formatting | the XML of C72 read back as the tree the style sheets of C86 and C87 get | C88 |
| Lengths | the arithmetic of xsl/odt/common.xsl and xsl/hwp5css-common.xsl in binary floating point: conversions of HWP units to centimetres, millimetres and points, percentages, sizes of letters | C89 |
| Lengths of files | the page record of a section and the numbers of paragraph shapes, from their bytes to the lengths written by hwp5odt and hwp5html | C90 |
| Hwp5odt as a command | `hwp5odt.py` 137-151, 326-372, 428-440: modes, destination, what is left in the file system and the exit status | C91 |
| Formats | `proc/find.py` 86-105, 164-171, 218-231 (--format, --from-stdin), `proc/models.py` 192-203, 226-234 (--format), `utils.py` 100-130, and of Python `format % dict` with `%%`, `%(key)s`, `%(key)d`, the flag 0 and widths, and the unicode_escape codec | C92 |
| hwp5proc as a command | `hwp5proc.py` 81-88, `proc/version.py` 26-29, `proc/header.py` 29-41, `proc/xml.py` 38-75, `xmlmodel.py` 588-605; the filters of xmllint and `xmldump_flat` without a declaration are function arguments | C93 |

## Plan per property

| id | what is modelled | how it is proved |
|----|------------------|------------------|
| C01, C02 | record header/record/stream codec over byte lists | bit-field arithmetic, induction over the record list |
| C03, C04 | the same reader on arbitrary bytes | functional induction on the reader; exhaustive outcome classification |
| C05, C06, C55 | grouping, selection, linking as list functions | induction with the pending-top invariant |
| C07, C08, C10 | level stack machines | simulation against forests built from levels (spec) |
| C09, C11 | event/tree conversions | mutual induction on trees |
| C12, C13, C14, C15, C53 | bit groups, flags parser, enums, primitives, colours | testbit extensionality; induction over the entry list; history invariant |
| C16-C20 | compiled type events, work-list engine, value stack | refinement: engine on compiled events = recursive reader (spec); induction on type descriptions |
| C21, C22 | control character search and paragraph text chunking | progress measure; tiling invariant |
| C23, C24, C25 | interval splitting and line grouping | interval invariant; counterexample for supplementary characters |
| C26 | language tokenizer | fold invariant |
| C27-C34 | the event passes of `xmlmodel.py` | each pass equals a tree transformation (spec); C34 composes them for every section in the documented shape (`Spec_Section.section_ok`) |
| C35, C36 | XML escaping and serialization | string induction; small XML reader as specification |
| C37 | base64 and 64-column wrapping | induction in steps of three bytes |
| C38 | keystream and digest extraction | keystream invariant, xor involution |
| C39, C40, C41 | generator reader, JSON array, hex dump | induction over read schedules / lists; a JSON grammar as specification |
| C42 | attribute lookup machine with instance dictionary | invariant over histories; counterexample history |
| C43, C58 | context managers with exceptions as an effect language | case analysis on the failing step, induction over filter lists |
| C44-C47 | storages as trees, OLE directories as path lists, a file system as a path map | induction on trees; counterexamples for hostile names |
| C48-C50 | layer selection, section listing, recognition | case analysis, sorting lemmas |
| C51 | property set reader | induction over descriptors; a writer as specification |
| C52, C64 | inflate as an abstract function with its chunking law | induction over chunks and over sequences of reads |
| C54 | record model parsing with parent contexts | `each_record`: the models of a legal level sequence are given record by record from the chain of ancestors; uniqueness by induction |
| C56, C57 | package and face-name slicing | induction over histories / language list |
| C59 | the tag table and the fallback name | injectivity by cases and by digits |
| C60 | UTF-16 decoding and length-prefixed text | decoder inverse of the encoder, by induction over code units |
| C61 | a validating transformation in front of a destination | case analysis on the step that fails |
| C62 | `make_texts_linesegmented_and_charshaped` | composition of C21, C23, C25 on the pending paragraph |
| C63 | header to text | the printed lines parsed back |
| C65, C66 | the text of a property set and of the summary | per-value text specification, induction over properties |
| C67 | every declared layout of `Model_Layouts.v` with the reader of C16 | the flat list of members of each class is compared with the declaration; failure position from C20 |
| C68 | `xmlattr_*`, `separate_plainvalues`, `startelement` | the attributes and children are given member by member (`shown_members`), by induction on the declared type; names checked by a decision procedure that is proved sound |
| C69 | `modelevents_to_xmlevents` over a tree, `DocInfo.events` | prefix events of the record forest (`Proof_Tree`), then C68 at every node |
| C70 | the passes of C34 on the nodes of records that were read, then the writer | an invariant on nodes (a record that was read, or one of the made nodes) is kept by every pass, for all events (`Proof_XmlPasses`); every such node is written |
| C71 | generators of the summary information | every generator is the walk of a tree of nodes that are written as the elements of `Spec_XmlSummary`; for times without a text, the outcome of a chain of generators |
| C72 | whole files with ids | an id changes the element of a node only by one attribute at the end, because the records have no member of that name; giving ids to the walk of a forest is then an induction over the forest, with the counters as counts of the names passed |
| C73 | json.dumps with sorted keys and indentation; records | a grammar of JSON texts and their values that is shown to be a function; induction over the value written, with what may follow it; the members of a record in their order; hexadecimal lines by C41 |
| C74 | the same for models | an invariant of the reader of types (texts are code points, bytes are bytes, no member twice) over every step, every record and every tree; then as C73 |
| C75 | proc/records.py | what int() reads (as C49) for the arguments; the lines decode uniquely; raw output by C02-C04 |
| C76 | proc/models.py | arguments as C75; the n-th model is the model of record n because models and records correspond in order |
| C77 | cli.py names of streams | case analysis; a numeral has no slash |
| C78 | proc/find.py | induction over the files and their streams; tags by C59 |
| C79 | binmodel/__init__.py, bintype.py | the events go on where reading a model raises: simulation of the raising reader by the other one step by step; a run is a prefix of the other; the declared references raise no ParseError (each class checked); termination by induction on declarations |
| C80 | storage/__init__.py, proc/ls.py | sorting of blocks of paths with their names as keys; induction on the directory; escaping as a code with a separate reading relation |
| C81 | proc/diststream.py, distdoc.py | the digest area as bytes hidden by the key stream of C38, independent of the decoder; digits and the bytes they spell |
| C82 | hwp5html.py | file systems as maps; an invariant of unpacking for arbitrary storages and failures (nothing outside of the target); the cleared directory as a fresh target of C46 |
| C83 | hwp5txt.py, hwp5html.py | cases of what opening, the intermediate XML and the style sheet do |
| C84 | xsl/plaintext.xsl | a function on nodes of the parsed XML for the style sheet; the text of a section is defined on its records (`Spec_Plaintext`); every pass of C34 keeps it; elements made of attributes have no text and no name with a template; the nodes a parser makes of the XML are those of the tree of C72 |
| C85 | bintype.py | a heap of item dicts; events hold addresses, END events share the address of their START event; a relation between the heap run and the run of C16 is kept by every step (`Proof_Heap`); the caches hold the layouts of C18 whatever was read before (`Proof_Heap2`); reads only add objects and change only their own |
| C86 | xsl/hwp5html.xsl, xsl/hwp5css*.xsl | selectors and declarations as lists; `Spec_Html` has the cascade of CSS 2.1 (matching, specificity, order) and the text of a page; the rules that match a `p`, `span`, `td` or `table` are found by filtering all rules of styles.css and the page (`Proof_Html`, `Proof_Html3`); nested induction over nodes for the text and for every `p` |
| C87 | xsl/odt/common.xsl, content.xsl, styles.xsl, document.xsl | content.xml and styles.xml as trees; `Spec_Opendoc` has the styles of OpenDocument (by family and name, parents, text in paragraphs) and what is shown of a document; all names of styles that are written are shown to be different (`Proof_Opendoc`), so each is found by its name (`Proof_Opendoc2`); deep induction over nodes for what is used (`Proof_Opendoc5`), induction over what is shown for what is written, and Forall2 for the order (`Proof_Opendoc6`) |
| C88 | xmlmodel.py, xmlformat.py, xsl/hwp5html.xsl, xsl/hwp5css*.xsl, xsl/odt/*.xsl together | `Spec_Formatting` says which node is made for which record (`made_for`), what a document made from a file has (`document_of`), and when records refer to records; `Proof_Formatting` shows by induction over written forests that elements with names of shapes are only where records of these types are, `Proof_Formatting2` that the attributes of a node are the members of its record, `Proof_Formatting3` follows the records at the top of a section through all passes, `Proof_Formatting4` puts the document together and counts ids, `Proof_Formatting5` joins it with C86 and C87 and with the bytes of C67 |
| C89 | xsl/odt/common.xsl 334-347, 436-512, 561-583, 1020-1176, 1371-1373; xsl/hwp5css-common.xsl 93-140, 240-334, 645-774, 864-883, 977-987 | `Model_Lengths` computes with numbers rounded to 53 bits, halves to even, and instantiates the functions for lengths that C86 and C87 leave open; `Spec_Lengths` says what a numeral means and that HWP units are 7200th parts of an inch; `Proof_Lengths` bounds the error of each operation and adds the bounds up; `Proof_Lengths2` finds the rules for sections and pages in the cascade; `Proof_Lengths3` shows that writing fifteen digits meets the premise on printing |
| C90 | binmodel/tagid57_page_def.py 31-50, binmodel/tagid25_para_shape.py (numbers), treeop.py, xmlmodel.py passes, xsl/odt/common.xsl, xsl/hwp5css-common.xsl | joins C88 (which node is made for which record) with C89 (lengths of nodes); new in C88: the node of a section has one page definition, made for the page record after its section record (`Proof_FormattingPage`, an invariant of every pass over the events); `Proof_FileLengths` reads the bytes of page and paragraph shape records |
| C91 | hwp5odt.py 137-151, 223-263, 326-372, 428-440 | the file system of C46, the package of C56 and the exit status of C83: `Model_OdtMain` opens the file, makes the zip file, converts, and writes the archive when the package is closed; `package_any` says what is in the package whatever the outcome, `breaks_off` names each way to fail with the files stored before it; the input is kept because every path is resolved to the one destination |
| C92 | proc/find.py 86-105, 164-171, 218-231, proc/models.py 192-203, 226-234, utils.py 100-130 | `Model_Format` parses a format as CPython does; what is not modelled of it (other conversions, flags and precisions, a conversion without key) is a function argument, and so are the values of keys other than the eight listed; the specification is a list of pieces, each with what it shows; the proof goes piece by piece over the text of the format. The line of find in C78 is shown to be that of its default format |
| C93 | hwp5proc.py 81-88, proc/version.py 26-29, proc/header.py 29-41, proc/xml.py 38-75, xmlmodel.py 588-605 | `Model_ProcMain` joins the header of C63, the events of C72 and the files of C83; the events may end with an exception. Of a broken dump it is shown that the bytes in the file, with the bytes of any rest after them, read back as all the events together |

## Where the code does not do what one expects

These are stated and proved as theorems named `_refuted` (or as noted); the
positive theorems carry the hypotheses that exclude them.

* C01 `out_of_range_tag`: a tag above 1023 changes the level.
* C02 `empty_payload`: a record with an empty payload is written but cannot be
  read back.
* C24 `supplementary`: a character outside the basic plane moves the next
  character into the wrong shape.
* C28 `top_level`: a list header at the top level is never closed.
* C29 `nested_end`: a field end in a nested line gives ill-nested events.
* C30 `empty_row`, `cell_counts`: rows without cells, and bodies whose cells
  do not match the declared counts.
* C32 `nesting`: paragraphs directly under paragraphs; a column definition at
  the top level.
* C35 `every_text`, C36 `carriage_return_lost`: characters illegal in XML are
  written as they are; a carriage return is read back as a newline.
* C38 `empty_stream`: an empty stream raises TypeError.
* C39 `size_respected`, `failure_keeps_all`: a sized read can return more than
  asked for, and a failure of the source loses what was read before.
* C40 `empty`: the array of no elements is not JSON.
* C42 `method_broken_after`, C43 `openssl_leak`.
* C44 `slash`, C45 `deep`, C46 `escape`, `collision`, `storage_05`,
  C47 `collision`: hostile or unlucky names in storages; streams more than two
  levels deep are not listed.
* C49 `leading_zero`: a section is counted but cannot be opened.
* C56 `mimetype_first`, `nul`: the order of the package and a NUL in a path.
* C62 `no_shapes`: a paragraph without character shapes fails.
* C64 `ends_early`, `short_read`: a chunk that inflates to nothing ends the
  copy.
* C74 `nan`: a number that is not finite gives a text that is not JSON.
* C77: a stream whose own path is `bodytext/1` cannot be named (`C77_every_path_refuted`): the name means a section.
* C78: a damaged file does not always leave the other files searched (`C78_goes_on_refuted`): only ParseError is caught, but flags cut short give KeyError and a truncated stream of records struct.error or EOFError; the files after it are not searched.
* C79: the events do not end where reading the models raises ParseError (`C79_ends_at_parse_error_refuted`): the member is reported as error and the next one is read where the failed read left the stream.
* C81: `diststream --key` and `--sha1` do not check that the record is a distribution record (`C81_tag_checked_refuted`); decoding does.
* C82: a parse error leaves an empty directory where the previous pages were, with exit status 0 (`C82_previous_kept_refuted`); `hwp5html doc/doc.hwp` removes the directory `doc` and the document in it (`C82_input_kept_refuted`); storage names such as `..` lead out of the directory (`C82_escape_refuted`).
* C83: an output file is emptied before the conversion, and a parse error ends with exit status 0 (`C83_previous_kept_refuted`).
* C84: words with a tab, line break, hyphen or non-breaking space between them are joined in the output of hwp5txt (`C84_words_apart_refuted`).
* C86: hwp5html shows text bold, italic or underlined if its style is, though the text is not (nothing resets it); paragraphs of styles without an English name, or whose name is not a name in CSS, are shown without their formatting (the rule has an invalid selector); numbered paragraphs get the class of a bullet with the same number (head-shape is not looked at); long dashed borders get the style `dahsed`; text in fields (hyperlinks) is not on the page, though hwp5txt writes it; all headers and footers of the document are shown in every section.
* C87: hwp5odt gives a text after a control character, drawing or note in its line no style or that of another text (the styles are numbered among the texts of a line, the spans among everything in it); the fonts of Latin and other texts are taken from the Korean fonts; colours of texts are not written; text that is not bold or italic is if the style is; line heights of the style stay if the paragraph has another kind of line spacing; a section has its page layout only if its first paragraph has a style of its own; style names that differ only in signs become the same name, and names such as `Caption` are there twice; borders such as `long-dash` are written as they are, which is no border style of OpenDocument; covered cells are not written; fonts used in content.xml are declared only in styles.xml; text in fields is not written, though hwp5txt writes it.
- C89 (`C89_moved_refuted`, and for all paragraphs in `C89_html_paragraph`): hwp5html moves the lines of a hanging paragraph with `padding-left`, and writes nothing for others. A paragraph that is not hanging but whose style is gets the `padding-left` of the style and is moved to the right by more than its margin.
- C91: an exit status of 0 does not tell that the package has a document in it: on a parse error hwp5odt logs, leaves a package without content.xml where a good one may have been, and exits with 0 (`C91_status_refuted`). An input named *.odt in the current directory is overwritten without being asked for (`C91_input_kept_refuted`).
- C92: `models --format` shows letters that are not ASCII as two or more other characters, because the UTF-8 bytes of the format are decoded as Latin-1 (`C92_unescape_refuted`). `find --from-stdin` cuts the last letter off a last name without line feed (`C92_stdin_last_refuted`).
- C93: a format that does not exist is not refused by `hwp5proc xml`: the output file is emptied first, and then UnboundLocalError is raised; `--format=flat` with its declaration always ends with TypeError on Python 3, with the output file emptied (`C93_format_refuted`).

## Trusted base

1. Coq 8.16.1's kernel (including its conversion by `vm_compute`, used in
   examples and decision procedures).
2. Assumptions: `Print Assumptions` follows every theorem in `Props_*.v` and
   says "Closed under the global context" for each: no axiom is used, ours or
   the library's.  (A scan of the loaded library also lists the seven fields of
   the module type `Coq.ssr.ssrunder.Under_rel`; no theorem depends on them.)
3. The reading of Python expressed by the model: arithmetic on unbounded
   integers, dictionaries as association lists in insertion order, exceptions
   as values, generators run to their end by their consumer.  Interleaving of a
   lazy generator with its consumer is not modelled except where a claim is
   about it (C39, C43, C58).  Stack depth, memory and timing are not modelled.
4. External code is an argument of the model, so theorems hold for any
   behaviour of it or under a hypothesis stated in the theorem: zlib's inflate
   (C48, C52, C64), AES (C38, C48), the operating system's file calls (C43,
   C46), the OLE library (C45), lxml and subprocesses (C58, C61), `repr` of
   floats and the text of dates (C65, C66, C68, C74).

### Modelled

The functions listed by file and line in the comments of the `Model_*.v`
files; by file: `recordstream.py`, `tagids.py`, `treeop.py`, `dataio.py`
(without the unit conversions 125-128), `bintype.py` (without the logging
328-353), `charsets.py`, `distdoc.py`, `compressed.py`,
`zlib_raw_codec.py` (the incremental decoder and the stream reader),
`filestructure.py`, `summaryinfo.py`, `msoleprops.py`, `storage/`,
`plat/olefileio.py`, `xmlformat.py`, `xmlmodel.py` (passes, embedding, the
documents of all parts and of the file), all record classes of `binmodel/`, the resource management of
`utils.py`, `transforms/__init__.py`, `hwp5odt.py`, and the commands
`proc/cat.py`, `proc/rawunz.py`, `proc/unpack.py`, `proc/summaryinfo.py`,
`proc/records.py`, `proc/models.py` (without --events and the choice
between standard input and file), `proc/find.py` (without --dump), `proc/ls.py`, `proc/diststream.py`, the names of streams in
`cli.py`, and what `hwp5html.py`, `hwp5txt.py` and `hwp5odt.py` leave in the file system.

### Not modelled

* the XSLT files other than `xsl/plaintext.xsl`, `xsl/hwp5html.xsl`,
  `xsl/hwp5css*.xsl` and `xsl/odt/` (`xsl/hwp5fodt.xsl`, which no command
  uses, `xsl/binspec2html.xsl`, `odf-relaxng/`) and everything they compute;
  for the transformation commands the style sheets are arbitrary functions of
  the intermediate XML;
* option parsing and logging: the rest of `cli.py`, `hwp5proc.py`,
  `hwp5view.py` (their work is done by modelled functions);
* `binspec.py`, `importhelper.py`, `locale/`, and `xmldump_flat.py` (which
  writes a text to a byte stream and uses `unicode`, so it cannot run under
  Python 3);
* other back ends: `plat/gir_gsf.py`, `plat/jython_poifs.py`,
  `plat/javax_transform.py`, `plat/xsltproc.py`, `plat/xmllint.py`,
  `plat/_uno/` (the abstract file and transformation arguments stand for any
  of them).

## Testing the theorems

`seeded/LOG.jsonl` records, for each wrong edit tried in a scratch copy of the
model, the definition, the edit, the claim it breaks, the theorems that no
longer prove and, where a theorem survived, how it was tightened.
