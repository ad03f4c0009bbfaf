{"id": "C01", "title": "Record header encoding is lossless", "statement": "For every tag id and level below 1024 and every payload size below 2^32, decoding an encoded record header gives back exactly the tag id, level and size and consumes exactly the header; the short 4-byte form is used if and only if the size is below 0xfff.", "quantifier": "all tagid/level in [0,1023], all sizes in [0,2^32), all bytes following the header", "why_tests_cant": "about 2^52 header values; the boundary sizes 0xffe/0xfff/0x1000 and bit overlap between fields matter for every combination", "anchors": ["src/hwp5/recordstream.py:encode_record_header", "src/hwp5/recordstream.py:decode_record_header"]}
{"id": "C02", "title": "Record stream dump/read round trip", "statement": "Writing any list of records (tag id and level below 1024, non-empty payload below 2^32 bytes) one after another and reading the stream back yields the same records in order, numbered 0,1,2,..., each with its exact payload and declared size, and the reader terminates normally.", "quantifier": "all finite lists of records with fields in range and non-empty payloads", "why_tests_cant": "payloads are arbitrary bytes, including bytes that look like headers; a list of any length", "anchors": ["src/hwp5/recordstream.py:dump_record", "src/hwp5/recordstream.py:read_record", "src/hwp5/recordstream.py:read_records"]}
{"id": "C03", "title": "Reading records accounts for every input byte", "statement": "For any byte string, if reading all its records succeeds then the header bytes and payloads of the records concatenate to the input (up to a trailing bare extended-size marker), record numbers are consecutive, and every record except possibly the last has a payload exactly as long as its declared size; re-dumping canonical input reproduces it.", "quantifier": "all byte strings, including corrupted and truncated ones", "why_tests_cant": "ranges over arbitrary malformed input; a test can only sample truncation points", "anchors": ["src/hwp5/recordstream.py:read_records", "src/hwp5/recordstream.py:read_record", "src/hwp5/recordstream.py:decode_record_header", "src/hwp5/dataio.py:readn"]}
{"id": "C04", "title": "Malformed record streams: exact failure classification", "statement": "A stream whose next header has 1-3 bytes raises struct.error, a record with declared size 0 raises the internal end-of-file exception out of the reader, an extended size field of 1-3 bytes raises struct.error, a bare extended header at the end ends the stream silently, and a payload cut short is returned without error; nothing else can go wrong.", "quantifier": "all byte strings", "why_tests_cant": "the absence of any other outcome is a universal statement over inputs", "anchors": ["src/hwp5/recordstream.py:read_record", "src/hwp5/recordstream.py:decode_record_header", "src/hwp5/dataio.py:readn", "src/hwp5/dataio.py:PrimitiveType.read"]}
{"id": "C05", "title": "Top-level grouping partitions the record stream", "statement": "Grouping records by top level yields non-empty groups whose concatenation is the record sequence; every group after the first begins with a level-0 record and no group contains a level-0 record after its first position.", "quantifier": "all record sequences with arbitrary levels", "why_tests_cant": "partition laws range over all level sequences of any length", "anchors": ["src/hwp5/recordstream.py:group_records_by_toplevel", "src/hwp5/recordstream.py:RecordStream.records_treegrouped"]}
{"id": "C06", "title": "Record selection by range, index and tree group", "statement": "Selecting records by a range (a,b) returns exactly the records numbered a..b-1, record(i) is the record numbered i or absent, and tree group n is the n-th block of the top-level partition; out-of-range selections are empty/None, with the tree-group selection of a missing group failing instead of returning nothing.", "quantifier": "all record sequences, all non-negative ranges/indexes", "why_tests_cant": "index arithmetic over every length and range", "anchors": ["src/hwp5/recordstream.py:RecordStream.records", "src/hwp5/recordstream.py:RecordStream.record", "src/hwp5/recordstream.py:nth"]}
{"id": "C07", "title": "Level sequences become well-nested events or are rejected", "statement": "Converting (level,item) pairs to start/end events: it succeeds exactly when each level is at least the first level and at most one more than its predecessor; then the events are the pre-order walk of the forest in which every item sits at the depth given by its level, each start is matched by its own end, and the order of items is unchanged.", "quantifier": "all finite sequences of (level,item)", "why_tests_cant": "unbounded depth and length; a single missed pop corrupts everything after it", "anchors": ["src/hwp5/treeop.py:prefix_event", "src/hwp5/treeop.py:build_subtree"]}
{"id": "C08", "title": "Levels below the first record close the synthetic root", "statement": "If a record has a level exactly one lower than the first record, the event conversion closes the synthetic root before continuing and the result is not well nested; two lower raises IndexError; both are never the case when the first record has level 0.", "quantifier": "all sequences of (level,item) with a later level below the first", "why_tests_cant": "quantifies over all malformed sequences", "anchors": ["src/hwp5/treeop.py:prefix_event", "src/hwp5/xmlmodel.py:prefix_binmodels_with_event"]}
{"id": "C09", "title": "Tree building and flattening are inverse", "statement": "Building a tree from the event walk of a tree returns the same tree and leaves exactly the events that followed it; walking a built tree gives back the events; events of several trees are the concatenation of the single walks.", "quantifier": "all finite trees and all trailing event sequences", "why_tests_cant": "trees have unbounded depth and branching", "anchors": ["src/hwp5/treeop.py:build_subtree", "src/hwp5/treeop.py:tree_events", "src/hwp5/treeop.py:tree_events_multi"]}
{"id": "C10", "title": "Ancestor reconstruction from levels", "statement": "For every (level,item) sequence accepted, the ancestors reported with each item are exactly the items on the path from the root to it in the tree described by the levels: the last one is the nearest preceding item with level one smaller.", "quantifier": "all level sequences", "why_tests_cant": "needs an invariant over histories of arbitrary length", "anchors": ["src/hwp5/treeop.py:prefix_ancestors_from_level", "src/hwp5/treeop.py:prefix_ancestors", "src/hwp5/binmodel/__init__.py:parse_models_intern"]}
{"id": "C11", "title": "Sub-event iteration consumes exactly one subtree", "statement": "After a start event has been taken, iterating the sub-events yields exactly the events up to and including the matching end and leaves the iterator positioned right after it.", "quantifier": "all balanced event sequences and continuations", "why_tests_cant": "depth is unbounded", "anchors": ["src/hwp5/treeop.py:iter_subevents", "src/hwp5/bintype.py:pop_subevents"]}
{"id": "C12", "title": "Bit-field extraction", "statement": "For any integer (also negative), the field lsb..msb of a flags value is the number formed by exactly those bits: it lies in [0,2^(msb-lsb+1)), bit i of it is bit lsb+i of the value, and a set of fields tiling the word determines the word; a field lying beyond the width of the storage type always reads 0.", "quantifier": "all integer values, all lsb<=msb, all tilings", "why_tests_cant": "ranges over all words and all field layouts", "anchors": ["src/hwp5/dataio.py:BitGroupDescriptor.get_int_value", "src/hwp5/dataio.py:Flags", "src/hwp5/binmodel/tagid18_bin_data.py:BinData"]}
{"id": "C13", "title": "Flags declarations are parsed as written", "statement": "A flags declaration made of entries lsb [msb] [type] name is parsed into exactly that list of fields (missing msb means lsb, missing type means the base type) and any other shape is rejected.", "quantifier": "all finite lists of flag entries in any mixture of the four forms", "why_tests_cant": "pushback parsing over unbounded argument lists", "anchors": ["src/hwp5/dataio.py:_parse_flags_args", "src/hwp5/dataio.py:FlagsType.__new__"]}
{"id": "C14", "title": "Enumerations map every integer to a stable value", "statement": "For every enumeration and integer: a declared value gives its name, an undeclared value is kept as the same number without a name instead of failing; re-creating a value gives the same value.", "quantifier": "all enum definitions, all integers, all histories of lookups", "why_tests_cant": "undeclared values come from files and are unbounded; caching makes it history dependent", "anchors": ["src/hwp5/dataio.py:EnumType", "src/hwp5/dataio.py:Enum"]}
{"id": "C15", "title": "Little-endian primitives", "statement": "Reading an unsigned/signed 8/16/32-bit number yields the unique in-range number whose little-endian two's complement encoding is the bytes read, advances by exactly its width, raises end-of-file on an exhausted stream and struct.error on a partial one.", "quantifier": "all byte streams and positions", "why_tests_cant": "2^32 values times stream states", "anchors": ["src/hwp5/dataio.py:UINT32", "src/hwp5/dataio.py:INT32", "src/hwp5/dataio.py:UINT16", "src/hwp5/dataio.py:INT16", "src/hwp5/dataio.py:UINT8", "src/hwp5/dataio.py:INT8", "src/hwp5/dataio.py:PrimitiveType", "src/hwp5/dataio.py:readn"]}
{"id": "C16", "title": "Structured reading agrees with the declared layout", "statement": "Reading a type through the event-based engine returns exactly the value obtained by reading the declared members one after another in order (conditional members only when the condition on earlier members holds, selected alternatives by key, counted arrays with the referenced or prefixed count), for every declared type, byte string and version.", "quantifier": "all type descriptions (arbitrary nesting of structures, arrays, alternatives, flags, primitives), all byte strings, all versions", "why_tests_cant": "the engine is a work-list interpreter over arbitrarily nested descriptions; tests cover a few layouts", "anchors": ["src/hwp5/bintype.py:resolve_typedefs", "src/hwp5/bintype.py:eval_typedef_events", "src/hwp5/bintype.py:resolve_values_from_stream", "src/hwp5/bintype.py:construct_composite_values", "src/hwp5/bintype.py:read_type", "src/hwp5/bintype.py:read_type_item"]}
{"id": "C17", "title": "Serialized values are read back", "statement": "For every type description and every value of that type, reading the canonical serialization of the value returns the value and leaves the remaining bytes untouched.", "quantifier": "all type descriptions without short-readable tails, all values, all trailing bytes", "why_tests_cant": "all values and nested layouts", "anchors": ["src/hwp5/bintype.py:read_type", "src/hwp5/dataio.py:ARRAY", "src/hwp5/dataio.py:N_ARRAY", "src/hwp5/dataio.py:X_ARRAY", "src/hwp5/dataio.py:SelectiveType", "src/hwp5/dataio.py:BSTR"]}
{"id": "C18", "title": "Parsed items tile the payload", "statement": "While a record body is read, the leaf items are reported at consecutive offsets without gap or overlap, and the bytes consumed followed by the reported unparsed rest are exactly the payload.", "quantifier": "all type descriptions and payloads", "why_tests_cant": "universal over layouts and payloads", "anchors": ["src/hwp5/bintype.py:resolve_value_from_stream", "src/hwp5/bintype.py:read_type_events", "src/hwp5/binmodel/__init__.py:parse_models_with_parent", "src/hwp5/binmodel/__init__.py:parse_model"]}
{"id": "C19", "title": "Version-dependent members", "statement": "Members declared for a later file version are neither read nor reported for an older file, all others are kept in order, and nothing else changes: filtering the compiled event list equals filtering the declared tree.", "quantifier": "all type descriptions, all versions (lexicographic comparison)", "why_tests_cant": "nested version marks, all versions", "anchors": ["src/hwp5/bintype.py:filter_with_version", "src/hwp5/bintype.py:compile_type_definition", "src/hwp5/bintype.py:get_compiled_typedef_with_version"]}
{"id": "C20", "title": "Truncated data in structured reads", "statement": "A fixed-format number cut by the end of the payload is reported as a parse error carrying the offset where it started; raw byte fields and strings cut short are accepted silently with fewer bytes, and an exhausted stream is always an error for any item needing at least one byte; for a flags-typed member the error surfaces as KeyError instead of a parse error.", "quantifier": "all type descriptions and all truncation points", "why_tests_cant": "every truncation point of every payload", "anchors": ["src/hwp5/bintype.py:read_type_events", "src/hwp5/bintype.py:resolve_value_from_stream", "src/hwp5/dataio.py:readn", "src/hwp5/dataio.py:BSTR", "src/hwp5/dataio.py:HexBytes"]}
{"id": "C21", "title": "Paragraph text is split losslessly into text and control chunks", "statement": "Parsing a paragraph text produces chunks whose ranges tile the text from 0 without gap or overlap; text chunks contain no control code unit, each control chunk starts at a control code unit and spans 1 or 8 code units by kind, and joining the chunks gives back every code unit outside the control characters' trailing repeat.", "quantifier": "all byte strings", "why_tests_cant": "text is arbitrary; odd-offset false matches inside UTF-16 text must never be taken as controls", "anchors": ["src/hwp5/binmodel/tagid51_para_text.py:ParaTextChunks.parse_chunks", "src/hwp5/binmodel/controlchar.py:ControlChar.find", "src/hwp5/binmodel/controlchar.py:ControlChar.decode"]}
{"id": "C22", "title": "Paragraph text parsing terminates with a defined outcome", "statement": "For every byte string, paragraph text parsing terminates; it fails exactly when an undefined control code (0x19-0x1d) is met, a control is cut before its id (or a tab before its parameters), or text is not valid UTF-16.", "quantifier": "all byte strings", "why_tests_cant": "termination and completeness of the failure list range over all inputs", "anchors": ["src/hwp5/binmodel/tagid51_para_text.py:ParaTextChunks.parse_chunks", "src/hwp5/binmodel/controlchar.py:ControlChar"]}
{"id": "C23", "title": "Shape ranges split text without loss", "statement": "Given shape runs starting at 0 in ascending order and adjacent text chunks, splitting chunks by shape yields pieces that concatenate to the original text in order, each piece lies inside one shape run and carries that run's shape, and positions stay adjacent.", "quantifier": "all ascending shape lists and all adjacent chunk sequences whose control chunks are not straddled", "why_tests_cant": "all overlaps of two unbounded interval sequences", "anchors": ["src/hwp5/xmlmodel.py:make_ranged_shapes", "src/hwp5/xmlmodel.py:split_and_shape", "src/hwp5/xmlmodel.py:make_texts_linesegmented_and_charshaped"]}
{"id": "C24", "title": "Shape splitting and supplementary characters", "statement": "Positions in a paragraph count UTF-16 code units while splitting cuts decoded text by code points: for texts without supplementary characters the split is exact, and with them characters can be attributed to the wrong run (text is still not lost).", "quantifier": "all texts", "why_tests_cant": "only texts with astral characters before a run boundary show it", "anchors": ["src/hwp5/xmlmodel.py:split_and_shape", "src/hwp5/binmodel/tagid51_para_text.py:ParaTextChunks.parse_chunks"]}
{"id": "C25", "title": "Line segmentation regroups without loss", "statement": "Grouping shaped chunks by line segment keeps all chunks in order, gives non-empty groups, puts consecutive chunks of the same segment together and never merges different segments.", "quantifier": "all chunk sequences", "why_tests_cant": "sequence of any length", "anchors": ["src/hwp5/xmlmodel.py:line_segmented"]}
{"id": "C26", "title": "Language tokenization is lossless and maximal", "statement": "Tokenizing text by language returns non-empty tokens concatenating to the text; within a token all characters with a language have the token's language, adjacent tokens have different languages, and text without any language character gives one Korean token.", "quantifier": "all texts", "why_tests_cant": "all character sequences", "anchors": ["src/hwp5/charsets.py:tokenize_unicode_by_lang", "src/hwp5/charsets.py:get_unichr_lang", "src/hwp5/xmlmodel.py:tokenize_text_by_lang"]}
{"id": "C27", "title": "Controls replace their control characters in order", "statement": "In every paragraph with as many controls as extended control characters, the n-th extended control character is replaced by the n-th control's subtree (recursively), other control characters and text stay where they are, and events stay well nested; with fewer controls the conversion fails and with more the extra controls are dropped.", "quantifier": "all paragraph trees of any nesting depth", "why_tests_cant": "recursive structure of unbounded depth", "anchors": ["src/hwp5/xmlmodel.py:make_extended_controls_inline", "src/hwp5/xmlmodel.py:meci_controlchar"]}
{"id": "C28", "title": "Paragraphs become children of their list header", "statement": "In every record tree, each list header followed by sibling paragraphs becomes the parent of exactly that maximal run of paragraphs, everything else keeps its parent and order, and events stay well nested.", "quantifier": "all record trees with list headers below the top level", "why_tests_cant": "unbounded depth and width", "anchors": ["src/hwp5/xmlmodel.py:make_paragraphs_children_of_listheader"]}
{"id": "C29", "title": "Field start/end matching keeps events well nested", "statement": "Fields opened by a field control and closed by the field-end character are re-opened in each line segment they span; when fields and field ends occur in lines, and whatever is nested inside a line leaves the open fields as it found them, the output is well nested; the events other than those of fields and field ends are always unchanged; with a field end inside a nested line segment the output can be unbalanced.", "quantifier": "all event sequences of paragraphs, line segments, fields and field ends", "why_tests_cant": "all interleavings of fields and line breaks", "anchors": ["src/hwp5/xmlmodel.py:match_field_start_end"]}
{"id": "C30", "title": "Table cells are grouped into rows as declared", "statement": "For every list of row cell counts >= 1 and exactly that many cells, each table body becomes rows holding the declared numbers of cells in order; a declared count of 0 shifts cells into wrong rows, and surplus cells fail.", "quantifier": "all row count lists and cell subtrees, nested tables included", "why_tests_cant": "nesting and counts unbounded", "anchors": ["src/hwp5/xmlmodel.py:restructure_tablebody", "src/hwp5/xmlmodel.py:rstbody_cellstart", "src/hwp5/xmlmodel.py:rstbody_cellend"]}
{"id": "C31", "title": "Section wrapping", "statement": "For every event sequence containing a section definition subtree, the wrapped output starts with the definition and its children, followed by all other events unchanged in order, and ends with its end event; a sequence without a section definition loses all its events.", "quantifier": "all event sequences", "why_tests_cant": "position of the definition and depth are unbounded", "anchors": ["src/hwp5/xmlmodel.py:wrap_section"]}
{"id": "C32", "title": "Column wrapping", "statement": "For every well-nested section event sequence, inserting column sets keeps it well nested, removes nothing, and every paragraph that starts a new column definition becomes a first child of a new column set.", "quantifier": "all well-nested event sequences below a section definition", "why_tests_cant": "unbounded nesting", "anchors": ["src/hwp5/xmlmodel.py:wrap_columns"]}
{"id": "C33", "title": "Unique ids", "statement": "Every id given to paragraphs, tables, drawing objects and shape components is unique within its kind and assigned in document order counting from 0, and nothing else is changed.", "quantifier": "all event sequences", "why_tests_cant": "uniqueness over any number of elements", "anchors": ["src/hwp5/xmlmodel.py:give_elements_unique_id", "src/hwp5/xmlmodel.py:XmlEvents"]}
{"id": "C34", "title": "The whole section pipeline yields well-nested XML events", "statement": "For every section record tree meeting the documented shape (controls matching their characters, rows matching cells, a section definition present) the composition of all passes ends normally and the emitted events are well nested.", "quantifier": "all conforming section trees", "why_tests_cant": "composition of eight passes over unbounded trees", "anchors": ["src/hwp5/xmlmodel.py:Section.events"]}
{"id": "C35", "title": "XML text and attribute escaping is faithful", "statement": "Escaping any text or attribute value yields output without raw markup characters that, when un-escaped by an XML reader, gives back the value with NUL characters removed.", "quantifier": "all character strings", "why_tests_cant": "injection safety is universal over strings", "anchors": ["src/hwp5/xmlformat.py:xmlevents_to_textchunks"]}
{"id": "C36", "title": "Serialized XML reflects the event sequence", "statement": "For every balanced element event sequence the produced text parses (by a minimal XML grammar) back into the same elements, attributes and character data.", "quantifier": "all balanced event sequences with legal names", "why_tests_cant": "unbounded trees and strings", "anchors": ["src/hwp5/xmlformat.py:xmlevents_to_textchunks", "src/hwp5/xmlformat.py:element", "src/hwp5/xmlformat.py:startelement"]}
{"id": "C37", "title": "Embedded binary data is recoverable", "statement": "For every embedded binary, the emitted text consists of lines of at most 64 base64 characters and decoding their concatenation gives back exactly the bytes of the stream named BIN<4 hex digits>.<ext>.", "quantifier": "all byte strings, all storage ids", "why_tests_cant": "all lengths modulo 3 and 48", "anchors": ["src/hwp5/xmlmodel.py:embed_bindata"]}
{"id": "C38", "title": "Distribution document key derivation", "statement": "For every 256-byte head, derivation is total, the 80-byte digest area lies inside the head, the keystream is the 15-bit output of the documented linear congruential generator, applying it twice restores the data, and the AES key is the first 16 bytes of the digest area; other lengths are rejected.", "quantifier": "all 256-byte heads (2^2048) and all other lengths", "why_tests_cant": "seed space and data are far beyond enumeration", "anchors": ["src/hwp5/distdoc.py:decode_head_to_sha1", "src/hwp5/distdoc.py:decode_head_to_key", "src/hwp5/distdoc.py:Random", "src/hwp5/distdoc.py:decode"]}
{"id": "C39", "title": "Generator-backed readers lose nothing", "statement": "Reading a generator-backed stream with any sequence of positive read sizes until it returns nothing yields exactly the concatenation of the generated chunks; a read returns empty only at the end; sized reads may exceed the requested size only after the generator is exhausted.", "quantifier": "all chunk sequences and all schedules of read sizes", "why_tests_cant": "schedule of reads times chunk boundaries", "anchors": ["src/hwp5/utils.py:GeneratorReader", "src/hwp5/utils.py:GeneratorTextReader", "src/hwp5/proc/cat.py"]}
{"id": "C40", "title": "JSON array output", "statement": "For every non-empty sequence of JSON texts the generated chunks form a JSON array with exactly these elements in order; for the empty sequence the output is not valid JSON.", "quantifier": "all finite sequences", "why_tests_cant": "empty vs arbitrary length", "anchors": ["src/hwp5/utils.py:generate_json_array", "src/hwp5/utils.py:JsonObjects"]}
{"id": "C41", "title": "Hex dump is lossless", "statement": "The hexadecimal dump of a payload has 16 bytes per line except a shorter non-empty last line and parses back to the payload.", "quantifier": "all byte strings", "why_tests_cant": "all lengths", "anchors": ["src/hwp5/dataio.py:dumpbytes", "src/hwp5/dataio.py:hexdump", "src/hwp5/recordstream.py:record_to_json"]}
{"id": "C42", "title": "Cached properties are computed once", "statement": "In every history of attribute accesses on an object, a cached property calls its function at most once and always returns the first value; but a property made from a separately named method makes later calls of that method on the same object fail.", "quantifier": "all histories of attribute reads and method calls", "why_tests_cant": "history dependent", "anchors": ["src/hwp5/utils.py:cached_property", "src/hwp5/filestructure.py:HwpSummaryInfo", "src/hwp5/filestructure.py:HwpFileHeader", "src/hwp5/filestructure.py:PreviewText"]}
{"id": "C43", "title": "Temporary files are removed", "statement": "Whatever fails inside, the temporary file of a conversion step is removed and the original exception is propagated; the openssl fallback leaks its file exactly when opening, writing or closing the input file fails.", "quantifier": "all failure points and bodies", "why_tests_cant": "all crash points", "anchors": ["src/hwp5/utils.py:mkstemp_open", "src/hwp5/utils.py:make_temp_file", "src/hwp5/utils.py:unlink_path", "src/hwp5/plat/__init__.py:get_aes128ecb_decrypt_openssl", "src/hwp5/hwp5odt.py:transformed_at_temp_path"]}
{"id": "C44", "title": "Storage leaf enumeration is complete and openable", "statement": "Enumerating leaves of a storage lists the path of every stream exactly once, in order, and opening a listed path by its path string returns that stream (names without slash).", "quantifier": "all storage trees with distinct slash-free names", "why_tests_cant": "unbounded trees", "anchors": ["src/hwp5/storage/__init__.py:iter_storage_leafs", "src/hwp5/storage/__init__.py:open_storage_item"]}
{"id": "C45", "title": "OLE directory listing", "statement": "For a compound file given by its stream paths, the root lists every first path component once in order and a storage lists the streams directly below it; streams below a second level of storages are not listed by any enumeration.", "quantifier": "all sets of stream paths", "why_tests_cant": "all directory shapes", "anchors": ["src/hwp5/plat/olefileio.py:olefile_listdir", "src/hwp5/plat/olefileio.py:OleStorageItem"]}
{"id": "C46", "title": "Unpacking writes each stream below the target directory", "statement": "Unpacking a storage whose item names are plain file names without control characters creates exactly one file per stream, below the target, with the stream contents; if the names at all levels are plain nothing outside of the target changes, whatever was there before and whether or not unpacking fails; names like \"..\" escape the target and names differing only by the 0x05 replacement overwrite each other.", "quantifier": "all storage trees", "why_tests_cant": "adversarial names", "anchors": ["src/hwp5/storage/__init__.py:unpack"]}
{"id": "C47", "title": "Virtual streams are listed consistently", "statement": "Every name listed by a storage with virtual streams can be opened, real items take precedence over virtual ones, and unknown names raise KeyError.", "quantifier": "all storages and format tables", "why_tests_cant": "all name collisions", "anchors": ["src/hwp5/storage/__init__.py:ExtraItemStorage"]}
{"id": "C48", "title": "Layer selection of HWP files", "statement": "For every header flag combination, each stream of the document is delivered through exactly the documented chain: password-protected documents are delivered raw, distributable ones decrypt ViewText and Scripts, compressed ones inflate DocInfo, BodyText, BinData, ViewText and Scripts after decryption, and other items are untouched.", "quantifier": "all flag combinations, all paths, all storage contents", "why_tests_cant": "combination of layers with arbitrary names", "anchors": ["src/hwp5/filestructure.py:Hwp5File", "src/hwp5/filestructure.py:Hwp5Compression", "src/hwp5/filestructure.py:Hwp5DistDoc", "src/hwp5/filestructure.py:Hwp5PasswordProtectedDoc"]}
{"id": "C49", "title": "Body sections are listed in numeric order", "statement": "For storages with names Section<n> (canonical decimal) the sections are exactly these, in strictly ascending numeric order, each openable; a non-canonical numeral such as Section01 is counted but not openable.", "quantifier": "all name sets", "why_tests_cant": "numeric vs lexicographic order for any count", "anchors": ["src/hwp5/filestructure.py:Sections.section_indexes", "src/hwp5/filestructure.py:Sections.section", "src/hwp5/filestructure.py:Sections.sections"]}
{"id": "C50", "title": "HWP5 recognition", "statement": "A storage is recognized as HWP5 exactly when it has a FileHeader stream whose signature is the HWP 5 signature; a FileHeader stream too short to parse raises instead of answering no.", "quantifier": "all storages", "why_tests_cant": "all FileHeader contents", "anchors": ["src/hwp5/filestructure.py:storage_is_hwp5file", "src/hwp5/filestructure.py:FileHeader", "src/hwp5/filestructure.py:VERSION"]}
{"id": "C51", "title": "OLE property sets", "statement": "Reading a property set stream gives, for each listed property id, the value stored at its offset according to its type, in the order code page, dictionary, others as first listed; when an id is listed twice the last offset counts; looking up a listed id gives its value and any other id a KeyError. A set without a dictionary property that lists anything but a code page cannot be read (AttributeError), and neither can one with a property of an unsupported type (KeyError). Every byte string is read to a result or an exception.", "quantifier": "all property set layouts", "why_tests_cant": "arbitrary offsets, orders and duplicates", "anchors": ["src/hwp5/msoleprops.py:PropertySetStreamReader", "src/hwp5/msoleprops.py:PropertyReader", "src/hwp5/msoleprops.py:PropertySet"]}
{"id": "C52", "title": "Decompression fallback", "statement": "Opening a compressed stream never fails because of its data: it yields the inflated data, or the original bytes when inflating reports an error; the chunked variant yields the same data for every chunking.", "quantifier": "all byte strings and chunk sizes, for any inflate behaviour", "why_tests_cant": "chunk boundaries and corrupt data", "anchors": ["src/hwp5/compressed.py:decompress", "src/hwp5/compressed.py:decompress_gen", "src/hwp5/zlib_raw_codec.py:StreamReader"]}
{"id": "C53", "title": "Colour values", "statement": "For every 32-bit colour value the red, green, blue and alpha parts are its first to fourth stored bytes and the text form is # followed by six hexadecimal digits determining the three parts.", "quantifier": "all 2^32 values", "why_tests_cant": "signed storage makes the sign bit matter", "anchors": ["src/hwp5/binmodel/_shared.py:COLORREF"]}
{"id": "C54", "title": "Record models: parents and extension types", "statement": "For every record sequence, each record is parsed with the model its tag selects, with the nearest preceding record of the next higher level as parent, extended by the key-selected type; list headers directly below a table control are captions before the table body and cells after it.", "quantifier": "all record sequences", "why_tests_cant": "history dependence on seen siblings at any depth", "anchors": ["src/hwp5/binmodel/__init__.py:parse_models_intern", "src/hwp5/binmodel/__init__.py:resolve_models", "src/hwp5/binmodel/__init__.py:resolve_model_events", "src/hwp5/binmodel/tagid56_list_header.py:ListHeader", "src/hwp5/binmodel/controls/table_control.py:TableControl"]}
{"id": "C55", "title": "Record links", "statement": "Linking records sets as parent the previous record when one level deeper and as sister the previous record at the same level, sharing its parent.", "quantifier": "all record sequences", "why_tests_cant": "history of levels", "anchors": ["src/hwp5/recordstream.py:link_records"]}
{"id": "C56", "title": "ODT package manifest", "statement": "Every file inserted in a package is stored under its path with its contents and listed in the manifest exactly once per insertion in order, and the archive additionally holds only the manifest and the mime type.", "quantifier": "all insertion histories", "why_tests_cant": "history", "anchors": ["src/hwp5/hwp5odt.py:ODTPackage"]}
{"id": "C57", "title": "Face names by language", "statement": "Splitting the face name list by the declared per-language counts gives consecutive slices in the documented language order whose concatenation is the list when the counts sum up to its length.", "quantifier": "all counts and lists", "why_tests_cant": "all count vectors", "anchors": ["src/hwp5/binmodel/__init__.py:DocInfo"]}
{"id": "C58", "title": "Resource filters are released in reverse order", "statement": "Cascaded output filters are entered in order and released in reverse order exactly once each, also when the body or a filter fails.", "quantifier": "all filter lists, all failure points", "why_tests_cant": "all crash points", "anchors": ["src/hwp5/utils.py:cascade_contextmanager_filters", "src/hwp5/utils.py:wrap_open_dest"]}
{"id": "C59", "title": "Tag names identify tag ids", "statement": "The name shown for a record tag id (documented name, or HWPTAG followed by the offset for unknown ids) determines the tag id: two different ids never share a name, and every documented id has its documented name.", "quantifier": "all integers as tag ids", "why_tests_cant": "unbounded id range", "anchors": ["src/hwp5/recordstream.py:tagname", "src/hwp5/tagids.py:tagnames"]}
{"id": "C60", "title": "Length-prefixed UTF-16 text", "statement": "Decoding a byte string as UTF-16LE succeeds exactly when it is the encoding of a sequence of Unicode scalar values and then returns that sequence; reading the length-prefixed encoding of any text of fewer than 65536 code units returns the text and leaves the following bytes; a text cut by the end of data is decoded from what is there without an error.", "quantifier": "all byte strings, all texts", "why_tests_cant": "unbounded texts including surrogate pairs", "anchors": ["src/hwp5/dataio.py:BSTR.read", "src/hwp5/dataio.py:decode_utf16le_with_hypua"]}
{"id": "C61", "title": "Validated output is all or nothing", "statement": "When the converted document is validated before output, the real output receives the complete document exactly when it validates, and nothing when validation or the conversion fails; the temporary file is removed in every case.", "quantifier": "all documents, validators and failure points", "why_tests_cant": "all crash points", "anchors": ["src/hwp5/plat/_lxml.py:RelaxNG.validating_output", "src/hwp5/hwp5odt.py:make_odf_transform"]}
{"id": "C62", "title": "Paragraph text becomes lines of shaped text", "statement": "For every tree of paragraphs whose text, character shape and line records fit together, the records are replaced by line elements at the end of the paragraph, and the lines say exactly the characters and controls of the text in order, each with the line and the character shape in force at its position; texts are then cut by language; a paragraph without character shapes makes the conversion fail.", "quantifier": "all trees of paragraphs, nested to any depth, with any number of shapes, lines and chunks", "why_tests_cant": "all interleavings of shape and line boundaries with text and controls", "anchors": ["src/hwp5/xmlmodel.py:make_texts_linesegmented_and_charshaped", "src/hwp5/xmlmodel.py:merge_paragraph_text_charshape_lineseg", "src/hwp5/xmlmodel.py:range_shaped_textchunk_events", "src/hwp5/xmlmodel.py:tokenize_text_by_lang"]}
{"id": "C63", "title": "Text form of the file header", "statement": "The text form of every well-formed file header has exactly one 'key: value' line for each of the twelve flags (0 or 1 as stored), the signature and the version a.b.c.d, in alphabetical order of the keys.", "quantifier": "all flag words and versions", "why_tests_cant": "2^32 flag words and all versions; tests look at one header", "anchors": ["src/hwp5/filestructure.py: HwpFileHeader.open_text", "src/hwp5/filestructure.py: FileHeader"]}
{"id": "C64", "title": "Copying a raw zlib stream", "statement": "The rawunz command copies the whole decompressed data of its input and then ends, whenever every complete 8196-byte chunk that is followed by more input yields some output; otherwise it may end early without an error, and a sized read may give less than asked for although more follows. Whatever sizes are read in turn, the pieces are a beginning of the decompressed data in order, none longer than asked for, tell() gives their total length, and a read of everything leaves nothing.", "quantifier": "all inputs and decompressor behaviours", "why_tests_cant": "depends on how the input falls into chunks", "anchors": ["src/hwp5/zlib_raw_codec.py: StreamReader.read, IncrementalDecoder.decode", "src/hwp5/proc/rawunz.py: main"]}
{"id": "C65", "title": "Text form of the summary information stream", "statement": "The text form of a property set stream has a line each for byte order, version, system identifier and class id, an empty line, and per set a title line with its offset and format id, an underline as long as the title, and for each property, by ascending offset, a line with its absolute offset, name, id and value; a dictionary is followed by a line for each of its entries.", "quantifier": "all property set streams", "why_tests_cant": "arbitrary numbers of sets, properties and entries at arbitrary offsets", "anchors": ["src/hwp5/msoleprops.py:PropertySetStreamTextFormatter", "src/hwp5/filestructure.py:HwpSummaryInfo.open_text"]}
{"id": "C66", "title": "Printed summary information", "statement": "The summaryinfo command prints thirteen lines (title, subject, author, keywords, comments, last saved by, revision number, last printed, created, last saved, pages, date, paragraphs) with the values of the first property set of a HWP summary stream; it stops with a KeyError at the first of them that the set does not list, after printing those before it; a stream of another class prints nothing and fails.", "quantifier": "all summary information streams", "why_tests_cant": "arbitrary combinations of present and missing properties", "anchors": ["src/hwp5/summaryinfo.py:HwpSummaryInfoTextFormatter", "src/hwp5/filestructure.py:HwpSummaryInfo", "src/hwp5/proc/summaryinfo.py:main"]}
{"id": "C67", "title": "Members of every record", "statement": "For every record that is read, the members reported are exactly those its type declares for the version of the file, in order: numbers little endian, bit groups by their bits with the names of their enumeration values, texts by their length prefix, arrays with as many items as their count, members whose condition on earlier members or on the parent fails left out, choices by the selecting bits; what is left of the payload is reported as unparsed; a record is refused only if its payload does not fit this description.", "quantifier": "all record types, payloads, versions and parents", "why_tests_cant": "the layouts depend on versions, on bit groups read earlier and on the parent record; payloads are arbitrary bytes", "anchors": ["src/hwp5/binmodel/__init__.py:parse_model", "src/hwp5/bintype.py:read_type", "src/hwp5/dataio.py:StructType", "src/hwp5/binmodel/"]}
{"id": "C68", "title": "The XML element of a record", "statement": "Every record that can be read, of whatever type, payload and version, is written as one element named after its type: each member is an attribute, or a child element if it is a struct, an Array element of child elements if it is an array of structs, one element per colour if it is a list of colours; bit fields give their word in hexadecimal and one attribute per bit group with the lower-case name of its enumeration value or its number, colours #rrggbb, storage ids BINxxxx, boxes four attributes; embedded data becomes character data; no two attributes have the same name, all names are XML names and no exception is raised.", "quantifier": "all record types, payloads, versions and parents; with the ids, rows and embedded data that the passes add or take away", "why_tests_cant": "over sixty record types with members that depend on versions, flags and parents; a single clash of attribute names or an unexpected value raises an exception in the middle of a conversion", "anchors": ["src/hwp5/xmlformat.py: startelement, element, expanded_xmlattribute, separate_plainvalues, xmlattr_uniqnames", "src/hwp5/dataio.py: typed_struct_attributes, StructType.parse_members", "src/hwp5/binmodel/"]}
{"id": "C69", "title": "Trees of models as XML; the document information", "statement": "A tree of models whose conversion ends without an exception becomes one element per model, children nested in the element of their parent, tags balanced and attribute names distinct. The document information of every readable record stream is a DocInfo element with one element per record, nested by the levels of the records, with embedded data if it is asked for and can be read; if all its texts have only XML characters, its bytes can be read back.", "quantifier": "all trees of models; all record streams, versions and embedded data", "why_tests_cant": "arbitrary nesting and arbitrary records; tests look at a few sample files", "anchors": ["src/hwp5/xmlmodel.py: modelevents_to_xmlevents, wrap_modelevents, prefix_binmodels_with_event, embed_bindata, DocInfo.events, XmlEvents", "src/hwp5/treeop.py: prefix_event"]}
{"id": "C70", "title": "The XML of a section", "statement": "Whatever bytes the records of a section have, everything that the passes over its document tree emit is written: records as in C68, the section number as one more attribute, texts with their characters as character data, control characters, rows and column sets with their attributes, lines with their numbers and the bits of their flags; writing adds no exception, and names are XML names. A section in the documented shape becomes one SectionDef element in which the document tree of C34 is nested, and its bytes can be read back if its texts have only XML characters.", "quantifier": "all record streams whose first record is at level 0, with any payloads, also if a record cannot be read or a pass fails midway; all versions and section numbers", "why_tests_cant": "the passes take records apart, add, remove and make nodes; each made node meets the writer only for particular texts, lines and tables, and one unexpected value stops the conversion of the file", "anchors": ["src/hwp5/xmlmodel.py: Section.events, section passes 165-515, modelevents_to_xmlevents", "src/hwp5/xmlformat.py: startelement", "src/hwp5/binmodel/tagid53_para_line_seg.py: LineSeg"]}
{"id": "C71", "title": "The XML of the summary information", "statement": "The summary information of a file becomes one HwpSummaryInfo element: the property set stream with its byte order, version, system identifier and class id, in it the property sets with their format ids and offsets, in these the properties by offset with id, offset, label, type name, type code and value, and the dictionary with its entries as children. Names are XML names, and the bytes can be read back if the texts have only XML characters. The only failure is that of a time without a text, and it happens just if there is one.", "quantifier": "all property set streams that can be read, with any number of sets and properties in any order, and any text function for times", "why_tests_cant": "fixture files have one set with the same few properties in the same order", "anchors": ["src/hwp5/xmlmodel.py: HwpSummaryInfo.events, PropertySetStreamModelEventsGenerator", "src/hwp5/msoleprops.py: PropertySetStream, Property, DictionaryEntry"]}
{"id": "C72", "title": "The XML of a whole file", "statement": "A file becomes one HwpDoc element with the version of its header, in which are, in this order, the element of the summary information (C71), the DocInfo element (C69) and a BodyText element with one SectionDef per section (C70). Paragraphs, tables, graphic objects and shape components have one more attribute with their number: the i-th of them in the whole document has the number i, counted from 0, so no number is given twice. Nothing else is changed, names are XML names, and the bytes can be read back if the texts have only XML characters.", "quantifier": "all readable summaries, document informations and section lists, any number of sections, with or without embedded data, all versions", "why_tests_cant": "the numbers run over the whole document and through nested tables and shapes, and the extra attribute must not clash with any member of any record; fixture files have few of them", "anchors": ["src/hwp5/xmlmodel.py: Hwp5File.events, give_elements_unique_id, Sections.events, wrap_modelevents", "src/hwp5/xmlformat.py: startelement"]}
{"id": "C73", "title": "The JSON of records says what the records are", "statement": "For every byte stream and every selection of its records that can be read and is not empty, records_json gives one JSON text (RFC 8259). Its value is the array of the selected records in order: objects with level, payload, seqno, size, tagid and tagname, where payload is a list of lines with the bytes in hexadecimal. A JSON text has one value only, so the records, with their payloads, can be recovered from the text: the same text is never written for different records.", "quantifier": "all byte streams, all selections (all records, a range, a tree), all tags, levels and payloads", "why_tests_cant": "a reader of the JSON depends on every text being well-formed and on nothing being lost in it; payloads, sizes and tag numbers are unbounded, and comparing with a stored output checks one of them", "anchors": ["src/hwp5/recordstream.py: record_to_json, RecordStream.records_json", "src/hwp5/utils.py: JsonObjects, generate_json_array", "src/hwp5/dataio.py: dumpbytes"]}
{"id": "C74", "title": "The JSON of models says what the models are", "statement": "For every byte stream whose models can be read and of which there is at least one, if all floating point numbers in them are finite, models_json gives one JSON text whose value is the array of the models in order: the members of the record as in C73, the name of the type, the content with all its values by name (names in ascending order, numbers and flags as numbers, texts as their UTF-16 code units, bytes as latin1, structures as objects, arrays as arrays, the chunks of paragraph texts with their positions), and the bytes left over, only if there are any. The same holds for one tree of the stream. A number that is not finite gives a text that is not JSON.", "quantifier": "all byte streams and versions, all record types, any text of a finite number that is a JSON number", "why_tests_cant": "every class of record has its own content; texts can hold quotes, control characters and characters outside the basic plane, and one value that cannot be encoded spoils the whole array", "anchors": ["src/hwp5/binmodel/__init__.py: model_to_json, ModelJsonEncoder, ModelStream.models_json", "src/hwp5/utils.py: generate_json_array", "src/hwp5/proc/models.py: print_models_json"]}
{"id": "C75", "title": "hwp5proc records prints exactly the records asked for", "statement": "For every byte stream: --range N prints the record with number N, --range N-M the records with numbers N to M-1, --treegroup N the records of the N-th tree, no option all of them, in order and whatever the output format. A range or tree that is no number, or a negative number, is refused with ValueError before anything is written; a tree that is not there is refused with TypeError. --simple prints one line per record, from which number, level and tag can be recovered; --raw writes a record stream whose records are the selected ones again; --raw-header and --raw-payload write the two parts of it; otherwise one JSON text with the records is written.", "quantifier": "all byte streams, all range and tree arguments, all output formats", "why_tests_cant": "streams, range arguments and levels are unbounded; a slip in one bound of a range or in the padding of a line shows only for particular numbers", "anchors": ["src/hwp5/proc/records.py: main", "src/hwp5/recordstream.py: RecordStream.records, dump_record, nth"]}
{"id": "C76", "title": "hwp5proc models prints exactly the models asked for", "statement": "For every byte stream: --seqno N prints the model of the record with number N and nothing else, or nothing if the stream has fewer models (failing if reading them fails); --treegroup N prints the models of the N-th tree; a number that is none is refused with ValueError before anything is written. --simple prints one line per model, from which number, level and type can be recovered; otherwise the JSON of C74 is written. A version for the standard input is read as its numbers between dots, 5.0.0.0 if none is given, ValueError if a part is no number.", "quantifier": "all byte streams and versions, all arguments", "why_tests_cant": "--seqno selects by position and the user reads it as the number of the record: that both agree depends on every record giving exactly one model in order, for all streams", "anchors": ["src/hwp5/proc/models.py: main, models_from_args, print_model_simple, stream_from_args"]}
{"id": "C77", "title": "Names of record streams", "statement": "The name docinfo opens the stream DocInfo; bodytext/N, for every way of writing the number N, opens the stream of section N; every other name opens the item with that path. So every stream of a file can be named, except one whose own path is docinfo or bodytext/N.", "quantifier": "all storages, all names, all spellings of numbers", "why_tests_cant": "names are arbitrary texts and three rules compete for them", "anchors": ["src/hwp5/cli.py: parse_recordstream_name"]}
{"id": "C78", "title": "hwp5proc find finds exactly the models asked for", "statement": "For all files whose streams hold bytes: find prints one line for every model with the given type name, or tag (by number or by name), and, with --incomplete, with bytes left over; with file, stream, number, tag and type; first the models of DocInfo, then those of the sections in the order of the storage, file by file. A ParseError ends the search of its file only: the lines printed before it stay and the next file is searched. Any other exception ends the search. A tag number without a name is refused with KeyError before any file is opened.", "quantifier": "all lists of files, all contents and versions, all conditions", "why_tests_cant": "that nothing is missed and nothing printed twice is about all files; which failures end the whole search depends on the exceptions of all readers", "anchors": ["src/hwp5/proc/find.py: main, conditions_from_args, flat_models, printer_from_args"]}
{"id": "C79", "title": "Model events agree with the models, and report what they raise", "statement": "For every stream of records and version: if the models of the stream can be read, its events are, record by record in order, the record, the events its model was read with, and its end with the offset reached and the bytes left over; no error is among them. Conversely events that end without an error are those of models that can be read. If reading the models raises, the events begin with those of the models before; a ParseError appears as error event with its cause and offset among the events of the next record, any other exception ends the events in the same way. In any case the events of a record close with offset and leftover that split its payload, all records are covered in order if the events end, and only the last record can be incomplete otherwise.", "quantifier": "all record streams with byte payloads, all versions, any amount of fuel of the model", "why_tests_cant": "the events are produced by the same generators with and without the exception; that they agree in all records and that what follows an error does not disturb the offsets is about all payloads and all record types", "anchors": ["src/hwp5/binmodel/__init__.py: resolve_models, resolve_model_events, ModelStream.parse_model_events", "src/hwp5/bintype.py: resolve_type_events, eval_typedef_events, resolve_values_from_stream"]}
{"id": "C80", "title": "hwp5proc ls lists every stream once, in order, with a path that can be read back", "statement": "For every storage with the contents of a directory with distinct names: ls prints one line for each stream and no other line; the lines are ordered by the paths, compared name by name by code points; each line is printable ASCII and is read back, by the rules for backslash escapes, as exactly one text, the path of the stream; opening that path gives the stream. If the names of the storage cannot be listed nothing is printed and the exception is raised.", "quantifier": "all storages, any depth, all names of Unicode characters", "why_tests_cant": "names are arbitrary texts with control characters, backslashes and characters beyond ASCII; that no two paths give the same line and none is lost is about all of them", "anchors": ["src/hwp5/storage/__init__.py: printstorage", "src/hwp5/proc/ls.py: main"]}
{"id": "C81", "title": "hwp5proc diststream writes the key, the digest and the decrypted stream", "statement": "For every input that begins with a record of 256 bytes: the head hides exactly one text of eighty bytes, behind the seed and the number of bytes its last four bits say, xored with the key stream of the seed; --key --raw writes the first sixteen of them and --key their digits in lower case; --sha1 --raw writes the twenty bytes the text spells in hexadecimal digits of either case and --sha1 these in lower case, and if the text is not forty digits it raises ValueError or UnicodeDecodeError. Without option the rest is decrypted with what --key --raw writes. A record of another size is refused with ValueError. The options --key and --sha1 accept records of any tag, decoding only that of distribution data.", "quantifier": "all inputs, seeds, digests and decryption functions", "why_tests_cant": "the place and the key stream depend on a 32 bit seed", "anchors": ["src/hwp5/proc/diststream.py: main", "src/hwp5/distdoc.py: decode_head_to_sha1, decode_head_to_key, decode"]}
{"id": "C82", "title": "hwp5html writes exactly its directory and nothing else", "statement": "For every document, file system and directory named by plain names: if the file cannot be opened nothing changes. If the conversion succeeds the status is 0, the directory contains exactly index.xhtml, styles.css and, if the document has a storage BinData, the directory bindata with exactly its contents; whatever was in the directory before is gone. Whether or not it succeeds nothing outside of the directory changes, if the names in BinData are plain. Without --output the directory is in the current one, named like the file without its extension. Previous pages are not kept if the conversion fails, the status being 0 for a parse error; a file in a directory of its own name is itself removed; names that are not plain lead out of the directory.", "quantifier": "all file systems, paths of plain names, documents, style sheets and failures at any point", "why_tests_cant": "what is left behind after a failure at an arbitrary point in an arbitrary file system is not enumerable", "anchors": ["src/hwp5/hwp5html.py: main, open_dir, HTMLTransform.transform_hwp5_to_dir, transform_xhwp5_to_dir, extract_bindata_dir", "src/hwp5/storage/__init__.py: unpack"]}
{"id": "C83", "title": "hwp5txt and hwp5html --html, --css write one file or standard output", "statement": "For every document and path: if the file cannot be opened no output file is made. Otherwise the output file has exactly what the conversion wrote, up to where it failed, all other files are as before, and nothing goes to standard output; without --output all goes to standard output and no file changes; if the path cannot be written nothing changes. The exit status is 1 exactly for an invalid file; it is 0 for a success and also for a conversion that broke off with a parse error. A file that was there before is lost if the conversion fails.", "quantifier": "all file systems, paths, documents, style sheets and exceptions", "why_tests_cant": "failures at any point and any state of the file system", "anchors": ["src/hwp5/hwp5txt.py: main", "src/hwp5/hwp5html.py: main", "src/hwp5/utils.py: make_open_dest_file"]}
{"id": "C84", "title": "The text hwp5txt prints is the text of the document", "statement": "For every document as in C72 whose sections have one section definition each: the style sheet of hwp5txt makes of its XML exactly the texts of the sections in order. The text of a section is, for every paragraph, its characters, with what its controls say at the places of their control characters, and a line feed; a table or drawing is one sign on its own line, other controls give the paragraphs in them; the paragraphs in the section definition come first. Nothing else of the records matters (character shapes, line segments, styles, attributes). The output has no characters below the space other than line feeds. Tabs, line breaks, hyphens and non-breaking or fixed width spaces are dropped, so that words run together.", "quantifier": "all documents of the documented shape, of any size and nesting", "why_tests_cant": "the text goes through six passes over arbitrary trees, the XML writer and a style sheet; files of a test suite show single cases", "anchors": ["src/hwp5/xsl/plaintext.xsl", "src/hwp5/hwp5txt.py: TextTransform", "src/hwp5/xmlmodel.py", "src/hwp5/xmlformat.py"]}
{"id": "C85", "title": "A read does not depend on what was read before, and leaves it as it was", "statement": "For any declarations and any list of earlier reads in the same process, with any versions and bytes, successful or not: the next read reports the same events, ends at the same place in the stream, with the same outcome and value, as in a process that has just started; these are the events and the value the declaration says (C16). The events and values of an earlier read, looked at again after any later reads, are what they were. Although the code caches compiled layouts per version and fills in shared mutable dicts, none of this can be seen.", "quantifier": "all declarations, all histories of reads of any length, all versions, contexts and byte strings", "why_tests_cant": "the result of a test depends on which tests ran before it in the same process only if this property is false; no finite number of orders settles all of them, and an aliasing fault shows only for particular pairs of reads", "anchors": ["src/hwp5/bintype.py: get_compiled_typedef_with_version", "src/hwp5/bintype.py: static_to_mutable", "src/hwp5/bintype.py: resolve_typedefs", "src/hwp5/bintype.py: resolve_values_from_stream", "src/hwp5/bintype.py: construct_composite_values", "src/hwp5/bintype.py: read_type"]}
{"id": "C86", "title": "hwp5html shows each paragraph and each text in its own shape", "statement": "On the page hwp5html makes, with its styles.css, a browser that follows CSS gives every paragraph the alignment, margins and indent of its own paragraph shape, and every text in it the colour, size and font of its own character shape, the font being the one with that number among the fonts of the text's language; properties the own shape does not mention come from the style, and nothing else on the page interferes, whatever elements they are in. Cells and tables get the borders with their number, pictures the file with their number. Every p is a paragraph of the document, and if the lines have only texts, control characters and controls without words the page has the characters of the texts and control characters (without those of control characters: the text hwp5txt writes). This holds if the style names are different names in CSS that are not used otherwise. Not true: text that is not bold in a bold style; styles without a usable English name; numbered paragraphs; text in fields.", "quantifier": "all documents (trees of nodes with one IdMappings), all paragraphs, texts, cells, tables and pictures in them, all ancestors, all CSS properties", "why_tests_cant": "which of the rules wins depends on all styles and shapes of a document together: a test checks the class attributes or the rules of one document, not what they come to for all", "anchors": ["src/hwp5/xsl/hwp5html.xsl: Paragraph", "src/hwp5/xsl/hwp5html.xsl: LineSeg/Text", "src/hwp5/xsl/hwp5css.xsl", "src/hwp5/xsl/hwp5css-common.xsl: Style", "src/hwp5/xsl/hwp5css-common.xsl: ParaShape", "src/hwp5/xsl/hwp5css-common.xsl: CharShape", "src/hwp5/xsl/hwp5css-common.xsl: BorderFill"]}
{"id": "C87", "title": "hwp5odt writes each paragraph, text, table and drawing with its own formatting", "statement": "In the content.xml and styles.xml hwp5odt writes, every paragraph that is shown (in sections, cells, boxes and notes) is a text:p, in order, whose style, found by its name as OpenDocument says, gives it the alignment, margins, indent, line height and page break of its own shape; every text with only texts before it in its line is a text:span with the same characters, the size, lines and Korean font of its own character shape; what the own shape does not mention comes from the style. Tables have the same rows and cells with their spans, paddings, borders and background; drawings their fill, outline, margins and place in the text; pictures their file; notes their number and text; sections their page layout; fonts are declared. With --document the one file written comes to the same. Every style used by a paragraph, table, cell or drawing is defined exactly once, and a document with only texts has the text hwp5txt writes. This holds if ids are numbers that differ and the translated style names differ. Not true: colours of texts, texts after control characters, Latin fonts, covered cells, text in fields.", "quantifier": "all documents (trees of nodes with one IdMappings and one BodyText), all paragraphs, texts, tables, cells, drawings, pictures and sections shown in them, all properties", "why_tests_cant": "which style an element gets depends on all names written in both files: a test looks at the names or the styles of one document, not whether they meet in all", "anchors": ["src/hwp5/xsl/odt/common.xsl: Paragraph", "src/hwp5/xsl/odt/common.xsl: Text", "src/hwp5/xsl/odt/common.xsl: TableControl", "src/hwp5/xsl/odt/common.xsl: ShapeComponent", "src/hwp5/xsl/odt/common.xsl: Style", "src/hwp5/xsl/odt/common.xsl: PageDef", "src/hwp5/xsl/odt/content.xsl", "src/hwp5/xsl/odt/styles.xsl", "src/hwp5/xsl/odt/document.xsl"]}
{"id": "C88", "title": "Formatting is that of the bits of the records of the file, through all stages", "statement": "For a file as in C72 whose document information has one IdMappings record and whose sections hold no shape records, the XML that is written, read back, is a document with one list of shapes in which the k-th character shape, paragraph shape, style (and so on) is made for the k-th record of that type, with its numbers, texts, colours and groups of bits as attributes, and in which the paragraphs of each section are made for its records at level 0, in order. So if a paragraph record has the number of a style and of a paragraph shape, hwp5odt and hwp5html show the paragraph with the alignment that bits 2 to 4 of the first byte of that paragraph shape record say, its lengths, and its page break; and a text with a character shape of that number is bold or italic if bits 1 or 0 of the record's flags (or of that of the style) say so, and on a page has the colour in the record.", "quantifier": "all files (all records, versions, numbers of shapes, styles, sections and paragraphs), all functions for lengths and places, all properties named", "why_tests_cant": "the way from a bit in one record to a property of an element goes through record readers, tree passes, numbering, XML, two style sheets and the cascade; tests check each stage on a few samples and compare whole outputs only by eye", "anchors": ["src/hwp5/xmlmodel.py: Hwp5File", "src/hwp5/xmlformat.py: XmlEvents", "src/hwp5/hwp5html.py: HTMLTransform", "src/hwp5/hwp5odt.py: ODTTransform", "src/hwp5/xsl/hwp5css.xsl", "src/hwp5/xsl/hwp5html.xsl", "src/hwp5/xsl/odt/common.xsl", "src/hwp5/binmodel/tagid25_para_shape.py", "src/hwp5/binmodel/tagid21_char_shape.py", "src/hwp5/binmodel/tagid50_para_header.py"]}
{"id": "C89", "title": "Lengths in documents and pages are those of the file", "statement": "Numbers in HWP units (7200th parts of an inch) are written as lengths that are right: in hwp5odt the indent and margins of a paragraph are half the numbers in its shape in points, up to a millionth, the left margin growing by a negative indent; line spacing is the ratio in per cent, or a length; letters have the base size times the relative size for their language; pages have their width, height (exchanged on wide pages) and margins up to half a hundredth of a centimetre; tables, cells and drawings their widths, margins and paddings up to half a hundredth of a millimetre. In hwp5html the same holds for margins, indent, line height, size of letters, and the boxes of sections, text areas and headers, in points and millimetres. All this in spite of floating point, for any way of printing numbers that gets fourteen digits right. (A paragraph that is not hanging in a style that is hanging is moved, see the refuted claim.)", "quantifier": "all documents, paragraphs, texts, sections, tables and drawings; all numbers of 32 bits (lengths), 31 bits (sizes), 24 bits (boxes of pages); all functions that print numbers with fourteen right digits", "why_tests_cant": "rounding errors depend on the number; tests check a few sizes such as A4, while the bound holds for each of four thousand million values and each order of operations in the style sheets", "anchors": ["src/hwp5/xsl/odt/common.xsl", "src/hwp5/xsl/hwp5css-common.xsl", "src/hwp5/xsl/hwp5css.xsl", "src/hwp5/hwp5odt.py: ODTTransform", "src/hwp5/hwp5html.py: HTMLTransform"]}
{"id": "C90", "title": "Pages and paragraphs have the sizes and margins that are in the bytes of the file", "statement": "For a file whose sections have different numbers and whose shapes are in one IdMappings record, hwp5odt makes for each section with one page record (tag 73, directly after the section definition and in it) exactly one page layout and one master page with the section's number; its width and height are the first two numbers of the record, exchanged if the lowest bit of byte 36 is set, its margins the next four, in centimetres up to half a hundredth. hwp5html puts the text of that section into boxes with that width, these margins and the space for header and footer. Each paragraph at the top of the section has half the margins and indent in bytes 4-23 of its paragraph shape record, in points up to a millionth, and the line spacing of bytes 24-27, of the kind in the lowest two bits.", "quantifier": "all files that are read, all sections, paragraphs and records; all payloads; all numbers of 32 bits (pages of hwp5html: 24 bits, line spacing in per cent: 28 bits)", "why_tests_cant": "the numbers pass through the reader of records, five passes over events, an XML file and a style sheet with floating-point arithmetic; tests look at a few sample files", "anchors": ["src/hwp5/binmodel/tagid57_page_def.py", "src/hwp5/binmodel/tagid25_para_shape.py", "src/hwp5/xmlmodel.py", "src/hwp5/treeop.py", "src/hwp5/xsl/odt/common.xsl", "src/hwp5/xsl/hwp5css-common.xsl"]}
{"id": "C91", "title": "hwp5odt writes one file, whatever happens, and never its input unless that is named .odt", "statement": "hwp5odt on a file that cannot be opened changes nothing, in every mode. Else it writes exactly one file: that of --output, or in the current directory the name of the input with its extension replaced by .odt. After success this is a package with exactly styles.xml, content.xml, manifest.rdf and every stream of BinData, all in the manifest, and the status is 0; after a failure it is a package with the files stored until then. Nothing else in the file system changes; in particular without --output the input stays as it is unless its name ends with .odt. --document, --styles and --content write one document to the file of --output or to standard output; --document has the images in it unless --no-embed-image is given, the others only with --embed-image.", "quantifier": "all inputs, options, file systems, current directories, names, style sheets and validators, all ways in which making the XML, a style sheet, BinData or a stream in it can fail", "why_tests_cant": "tests convert a few sample files with style sheets that succeed and look at the result; what a failure at each point leaves behind, and that nothing else is touched, is about all file systems", "anchors": ["src/hwp5/hwp5odt.py:main", "src/hwp5/hwp5odt.py:replace_ext", "src/hwp5/hwp5odt.py:open_odtpkg", "src/hwp5/hwp5odt.py:ODTTransform", "src/hwp5/hwp5odt.py:ODTPackage"]}
{"id": "C92", "title": "hwp5proc find and models --format print the text given, with the values of each model in it", "statement": "For every format made of texts, %%, %(key)s and %(key)d with or without the flag 0 and a width, and every file: hwp5proc find prints one line for every model asked for, in which every text is as given and every key is replaced by the value of that model (number in decimal, filled up to the width on the left with zeros or blanks), and values are not interpreted again; hwp5proc models does the same without line ends, after replacing the escapes of the format. A key that no model has prints nothing and ends with KeyError. Without --format find prints the lines of C78. Escaping a text and unescaping it gives the text. Names of files read from standard input are the lines, each ended by a line feed.", "quantifier": "all formats of that grammar, all files and byte streams, all selections, all texts of Unicode code points, all lists of names without line feed", "why_tests_cant": "no test uses these options; formats, values and escapes are unbounded, and whether a value can be taken for a part of the format is about all values", "anchors": ["src/hwp5/proc/find.py:printer_from_args", "src/hwp5/proc/find.py:filenames_from_stdin", "src/hwp5/proc/models.py:print_model_with_format", "src/hwp5/utils.py:unicode_escape", "src/hwp5/utils.py:unicode_unescape"]}
{"id": "C93", "title": "hwp5proc version, header and xml write what is in the file, and the exit status of hwp5proc tells whether it could be read", "statement": "hwp5proc ends with status 0 exactly after success and with status 1 exactly after an invalid file or a parse error; every other exception goes on. version prints the four numbers of the header, header its lines. xml with --no-validate-wellformed writes the XML of the file to the file of --output, or else to standard output, with the declaration exactly without --no-xml-decl; it is UTF-8 and reads back as the element of the file, and no other file changes. If making it fails, the output file or standard output has all that comes before, so that with the rest it would be the whole document. Text with a surrogate ends with UnicodeEncodeError; an output file that cannot be opened changes and prints nothing. A file that cannot be opened leaves no output file and prints nothing.", "quantifier": "all results of a subcommand, all headers, all elements with legal text, all points of failure, all file systems, paths and options", "why_tests_cant": "the tests do not run these commands on broken files; outcomes, headers, documents and the points at which reading can fail are unbounded", "anchors": ["src/hwp5/hwp5proc.py:main", "src/hwp5/proc/version.py:main", "src/hwp5/proc/header.py:main", "src/hwp5/proc/xml.py:main", "src/hwp5/proc/xml.py:xmldump_nested", "src/hwp5/xmlmodel.py:dump"]}
