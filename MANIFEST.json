{
 "claims": [
  {
   "property": "C01",
   "status": "proved",
   "theorems": [
    "C01_header_is_wire_format",
    "C01_header_roundtrip",
    "C01_out_of_range_tag_refuted"
   ],
   "note": ""
  },
  {
   "property": "C02",
   "status": "proved",
   "theorems": [
    "C02_records_roundtrip",
    "C02_dump_is_wire_format",
    "C02_empty_payload_refuted",
    "C02_empty_payload_stops"
   ],
   "note": ""
  },
  {
   "property": "C03",
   "status": "proved",
   "theorems": [
    "C03_reading_accounts_for_every_byte",
    "C03_redump_canonical"
   ],
   "note": ""
  },
  {
   "property": "C04",
   "status": "proved",
   "theorems": [
    "C04_reader_follows_grammar",
    "C04_only_failures"
   ],
   "note": ""
  },
  {
   "property": "C05",
   "status": "proved",
   "theorems": [
    "C05_grouping",
    "C05_grouping_of_failing_source"
   ],
   "note": ""
  },
  {
   "property": "C06",
   "status": "proved",
   "theorems": [
    "C06_range",
    "C06_range_outcome",
    "C06_index",
    "C06_tree_group"
   ],
   "note": ""
  },
  {
   "property": "C07",
   "status": "proved",
   "theorems": [
    "C07_accepts_exactly_legal_levels",
    "C07_events_are_the_walk",
    "C07_legal_levels_are_a_forest",
    "C07_forest_unique",
    "C07_order_unchanged",
    "C07_all_sequences"
   ],
   "note": ""
  },
  {
   "property": "C08",
   "status": "proved",
   "theorems": [
    "C08_below_first_closes_root",
    "C08_two_below_raises",
    "C08_first_level_zero_is_safe"
   ],
   "note": ""
  },
  {
   "property": "C09",
   "status": "proved",
   "theorems": [
    "C09_build_returns_the_tree",
    "C09_build_unclosed",
    "C09_build_then_walk",
    "C09_events_are_the_walk",
    "C09_walk_determines_tree",
    "C09_concatenation"
   ],
   "note": ""
  },
  {
   "property": "C10",
   "status": "proved",
   "theorems": [
    "C10_ancestors_are_nearest_preceding",
    "C10_ancestors_are_the_path"
   ],
   "note": ""
  },
  {
   "property": "C11",
   "status": "proved",
   "theorems": [
    "C11_subevents_stop_at_matching_end",
    "C11_subevents_unclosed"
   ],
   "note": ""
  },
  {
   "property": "C12",
   "status": "proved",
   "theorems": [
    "C12_bits",
    "C12_range",
    "C12_tiling_determines_word",
    "C12_beyond_width"
   ],
   "note": ""
  },
  {
   "property": "C13",
   "status": "proved",
   "theorems": [
    "C13_parsed_as_written",
    "C13_other_shapes_rejected",
    "C13_fields_of_type"
   ],
   "note": ""
  },
  {
   "property": "C14",
   "status": "proved",
   "theorems": [
    "C14_enum"
   ],
   "note": ""
  },
  {
   "property": "C15",
   "status": "proved",
   "theorems": [
    "C15_read_number",
    "C15_read_back",
    "C15_exhausted",
    "C15_partial_number",
    "C15_named_types"
   ],
   "note": ""
  },
  {
   "property": "C16",
   "status": "proved",
   "theorems": [
    "C16_engine_reads_the_declaration",
    "C16_no_other_answer"
   ],
   "note": ""
  },
  {
   "property": "C17",
   "status": "proved",
   "theorems": [
    "C17_written_values_read_back",
    "C17_leaves_read_back"
   ],
   "note": ""
  },
  {
   "property": "C18",
   "status": "proved",
   "theorems": [
    "C18_leaves_tile_the_payload"
   ],
   "note": ""
  },
  {
   "property": "C19",
   "status": "proved",
   "theorems": [
    "C19_filtered_events",
    "C19_reading_for_a_version",
    "C19_version_order"
   ],
   "note": ""
  },
  {
   "property": "C20",
   "status": "proved",
   "theorems": [
    "C20_leaf_failures",
    "C20_failures_located",
    "C20_short_bytes_accepted"
   ],
   "note": ""
  },
  {
   "property": "C21",
   "status": "proved",
   "theorems": [
    "C21_chunks_tile_and_describe",
    "C21_texts_maximal",
    "C21_roundtrip",
    "C21_parse_is_specified",
    "C21_control_table"
   ],
   "note": ""
  },
  {
   "property": "C22",
   "status": "proved",
   "theorems": [
    "C22_outcomes",
    "C22_failures_located"
   ],
   "note": ""
  },
  {
   "property": "C23",
   "status": "proved",
   "theorems": [
    "C23_split_lossless",
    "C23_split_is_cutting",
    "C23_straddled_control",
    "C23_before_first_run",
    "C23_no_runs"
   ],
   "note": ""
  },
  {
   "property": "C24",
   "status": "proved",
   "theorems": [
    "C24_basic_plane_exact",
    "C24_supplementary_refuted",
    "C24_parsed_text_fits",
    "C24_shapes_and_lines_exact"
   ],
   "note": ""
  },
  {
   "property": "C25",
   "status": "proved",
   "theorems": [
    "C25_groups",
    "C25_grouping_unique"
   ],
   "note": ""
  },
  {
   "property": "C26",
   "status": "proved",
   "theorems": [
    "C26_language_of_character",
    "C26_tokenization",
    "C26_tokenization_unique"
   ],
   "note": ""
  },
  {
   "property": "C27",
   "status": "proved",
   "theorems": [
    "C27_controls_inline",
    "C27_control_classes"
   ],
   "note": ""
  },
  {
   "property": "C28",
   "status": "proved",
   "theorems": [
    "C28_paragraphs_in_list_headers",
    "C28_cells_in_table_bodies",
    "C28_order",
    "C28_list_header_classes",
    "C28_top_level_refuted"
   ],
   "note": ""
  },
  {
   "property": "C29",
   "status": "proved",
   "theorems": [
    "C29_fields",
    "C29_other_events",
    "C29_field_classes",
    "C29_nested_end_refuted"
   ],
   "note": ""
  },
  {
   "property": "C30",
   "status": "proved",
   "theorems": [
    "C30_rows",
    "C30_empty_row_refuted",
    "C30_cell_counts_refuted"
   ],
   "note": ""
  },
  {
   "property": "C31",
   "status": "proved",
   "theorems": [
    "C31_section",
    "C31_section_tree",
    "C31_no_section"
   ],
   "note": ""
  },
  {
   "property": "C32",
   "status": "proved",
   "theorems": [
    "C32_columns",
    "C32_result",
    "C32_nesting_refuted"
   ],
   "note": ""
  },
  {
   "property": "C33",
   "status": "proved",
   "theorems": [
    "C33_ids",
    "C33_unique"
   ],
   "note": ""
  },
  {
   "property": "C34",
   "status": "proved",
   "theorems": [
    "C34_section",
    "C34_well_nested",
    "C34_one_section"
   ],
   "note": ""
  },
  {
   "property": "C35",
   "status": "proved",
   "theorems": [
    "C35_text",
    "C35_attribute",
    "C35_illegal_character_unreadable",
    "C35_every_text_refuted"
   ],
   "note": ""
  },
  {
   "property": "C36",
   "status": "proved",
   "theorems": [
    "C36_text_reads_back",
    "C36_bytes_read_back",
    "C36_utf8",
    "C36_carriage_return_lost_refuted"
   ],
   "note": ""
  },
  {
   "property": "C37",
   "status": "proved",
   "theorems": [
    "C37_text",
    "C37_decodes",
    "C37_name",
    "C37_events",
    "C37_record"
   ],
   "note": ""
  },
  {
   "property": "C38",
   "status": "proved",
   "theorems": [
    "C38_runs_partition",
    "C38_keystream",
    "C38_same_length",
    "C38_involutive",
    "C38_digest_inside",
    "C38_key_is_prefix",
    "C38_other_length_rejected",
    "C38_stream_decoded",
    "C38_other_record_rejected",
    "C38_empty_stream_refuted",
    "C38_parts"
   ],
   "note": ""
  },
  {
   "property": "C39",
   "status": "proved",
   "theorems": [
    "C39_all_delivered",
    "C39_nothing_lost",
    "C39_empty_only_at_end",
    "C39_sized_read",
    "C39_exceeds_only_exhausted",
    "C39_size_respected_refuted",
    "C39_cat_copies",
    "C39_failure_keeps",
    "C39_failure_keeps_all_refuted"
   ],
   "note": ""
  },
  {
   "property": "C40",
   "status": "proved",
   "theorems": [
    "C40_array",
    "C40_elements_unique",
    "C40_array_is_json",
    "C40_objects",
    "C40_empty_refuted",
    "C40_failed"
   ],
   "note": ""
  },
  {
   "property": "C41",
   "status": "proved",
   "theorems": [
    "C41_hexdump_lossless",
    "C41_hexdump_with_offsets"
   ],
   "note": ""
  },
  {
   "property": "C42",
   "status": "proved",
   "theorems": [
    "C42_first_value_kept",
    "C42_called_at_most_once",
    "C42_first_access_calls",
    "C42_assigned_value",
    "C42_method_works_before",
    "C42_method_broken_after"
   ],
   "note": ""
  },
  {
   "property": "C43",
   "status": "proved",
   "theorems": [
    "C43_mkstemp_open",
    "C43_make_temp_file",
    "C43_conversion_step",
    "C43_resource_copy",
    "C43_openssl_leak"
   ],
   "note": ""
  },
  {
   "property": "C44",
   "status": "proved",
   "theorems": [
    "C44_leaves",
    "C44_openable",
    "C44_slash_refuted"
   ],
   "note": ""
  },
  {
   "property": "C45",
   "status": "proved",
   "theorems": [
    "C45_root",
    "C45_storage",
    "C45_not_a_storage",
    "C45_get",
    "C45_leaves",
    "C45_opens",
    "C45_deep_refuted"
   ],
   "note": ""
  },
  {
   "property": "C46",
   "status": "proved",
   "theorems": [
    "C46_unpack",
    "C46_command",
    "C46_escape_refuted",
    "C46_collision_refuted",
    "C46_storage_05_refuted",
    "C46_confined"
   ],
   "note": ""
  },
  {
   "property": "C47",
   "status": "proved",
   "theorems": [
    "C47_listing",
    "C47_get",
    "C47_collision_refuted"
   ],
   "note": ""
  },
  {
   "property": "C48",
   "status": "proved",
   "theorems": [
    "C48_opens",
    "C48_invalid",
    "C48_listing",
    "C48_root_streams",
    "C48_inner_streams",
    "C48_untouched",
    "C48_formats",
    "C48_text"
   ],
   "note": ""
  },
  {
   "property": "C49",
   "status": "proved",
   "theorems": [
    "C49_sorted",
    "C49_canonical",
    "C49_openable",
    "C49_leading_zero_refuted"
   ],
   "note": ""
  },
  {
   "property": "C50",
   "status": "proved",
   "theorems": [
    "C50_recognized",
    "C50_short_raises",
    "C50_missing"
   ],
   "note": ""
  },
  {
   "property": "C51",
   "status": "proved",
   "theorems": [
    "C51_stream_read",
    "C51_set_read",
    "C51_lookup",
    "C51_no_dictionary",
    "C51_unknown_type",
    "C51_cut_text",
    "C51_always_answers"
   ],
   "note": ""
  },
  {
   "property": "C52",
   "status": "proved",
   "theorems": [
    "C52_decompress",
    "C52_chunked"
   ],
   "note": ""
  },
  {
   "property": "C53",
   "status": "proved",
   "theorems": [
    "C53_colour_parts"
   ],
   "note": ""
  },
  {
   "property": "C54",
   "status": "proved",
   "theorems": [
    "C54_models",
    "C54_unique",
    "C54_each_record",
    "C54_one_record",
    "C54_unparsed",
    "C54_stream",
    "C54_grouping_irrelevant",
    "C54_needs_parent",
    "C54_one_tree"
   ],
   "note": ""
  },
  {
   "property": "C55",
   "status": "proved",
   "theorems": [
    "C55_links"
   ],
   "note": ""
  },
  {
   "property": "C56",
   "status": "proved",
   "theorems": [
    "C56_package",
    "C56_file",
    "C56_manifest",
    "C56_mimetype",
    "C56_conversion",
    "C56_failed_insertion",
    "C56_closed",
    "C56_surrogate",
    "C56_mimetype_first_refuted",
    "C56_nul_refuted"
   ],
   "note": ""
  },
  {
   "property": "C57",
   "status": "proved",
   "theorems": [
    "C57_declared_counts",
    "C57_blocks",
    "C57_concatenation",
    "C57_whole",
    "C57_nth_block",
    "C57_face_of_charshape"
   ],
   "note": ""
  },
  {
   "property": "C58",
   "status": "proved",
   "theorems": [
    "C58_cascade",
    "C58_reverse_once",
    "C58_wrapped_destination",
    "C58_terminal_only",
    "C58_subprocess"
   ],
   "note": ""
  },
  {
   "property": "C59",
   "status": "proved",
   "theorems": [
    "C59_tagname_injective",
    "C59_documented_names",
    "C59_other_names"
   ],
   "note": ""
  },
  {
   "property": "C60",
   "status": "proved",
   "theorems": [
    "C60_utf16_decoding",
    "C60_utf16_error",
    "C60_string_roundtrip",
    "C60_string_cut_silently"
   ],
   "note": ""
  },
  {
   "property": "C61",
   "status": "proved",
   "theorems": [
    "C61_all_or_nothing"
   ],
   "note": ""
  },
  {
   "property": "C62",
   "status": "proved",
   "theorems": [
    "C62_lines",
    "C62_exact",
    "C62_no_shapes_refuted",
    "C62_tokens"
   ],
   "note": ""
  },
  {
   "property": "C63",
   "status": "proved",
   "theorems": [
    "C63_header_text"
   ],
   "note": ""
  },
  {
   "property": "C64",
   "status": "proved",
   "theorems": [
    "C64_rawunz",
    "C64_ends_early_refuted",
    "C64_short_read_refuted",
    "C64_reads"
   ],
   "note": ""
  },
  {
   "property": "C65",
   "status": "proved",
   "theorems": [
    "C65_stream_text",
    "C65_text_bytes"
   ],
   "note": ""
  },
  {
   "property": "C66",
   "status": "proved",
   "theorems": [
    "C66_summary_read",
    "C66_summary_text",
    "C66_missing_field",
    "C66_other_class"
   ],
   "note": ""
  },
  {
   "property": "C67",
   "status": "proved",
   "theorems": [
    "C67_every_record",
    "C67_one_record",
    "C67_failure",
    "C67_numbers"
   ],
   "note": ""
  },
  {
   "property": "C68",
   "status": "proved",
   "theorems": [
    "C68_element",
    "C68_names",
    "C68_ids"
   ],
   "note": "Types ParaText, ParaCharShape, ParaLineSeg and ParaRangeTag are never written as records (C34)."
  },
  {
   "property": "C69",
   "status": "proved",
   "theorems": [
    "C69_elements",
    "C69_docinfo"
   ],
   "note": ""
  },
  {
   "property": "C70",
   "status": "proved",
   "theorems": [
    "C70_nodes",
    "C70_events",
    "C70_section"
   ],
   "note": ""
  },
  {
   "property": "C71",
   "status": "proved",
   "theorems": [
    "C71_summary",
    "C71_times"
   ],
   "note": "the text of a FILETIME is a parameter"
  },
  {
   "property": "C72",
   "status": "proved",
   "theorems": [
    "C72_document",
    "C72_numbers"
   ],
   "note": ""
  },
  {
   "property": "C73",
   "status": "proved",
   "theorems": [
    "C73_unique",
    "C73_records",
    "C73_records_recovered"
   ],
   "note": ""
  },
  {
   "property": "C74",
   "status": "proved",
   "theorems": [
    "C74_models",
    "C74_treegroup",
    "C74_only_if_finite",
    "C74_nan_refuted"
   ],
   "note": "the text of a finite float is a parameter, assumed to be a JSON number"
  },
  {
   "property": "C75",
   "status": "proved",
   "theorems": [
    "C75_range",
    "C75_range_refused",
    "C75_tree",
    "C75_tree_refused",
    "C75_all",
    "C75_simple",
    "C75_simple_recovered",
    "C75_raw",
    "C75_raw_parts",
    "C75_json"
   ],
   "note": "on the opened stream; option parsing is not modelled"
  },
  {
   "property": "C76",
   "status": "proved",
   "theorems": [
    "C76_seqno",
    "C76_seqno_refused",
    "C76_prefix",
    "C76_tree",
    "C76_tree_refused",
    "C76_simple",
    "C76_simple_recovered",
    "C76_json",
    "C76_version",
    "C76_version_refused",
    "C76_default_version"
   ],
   "note": "without --events and --format; the JSON is that of C74"
  },
  {
   "property": "C77",
   "status": "proved",
   "theorems": [
    "C77_docinfo",
    "C77_section",
    "C77_other",
    "C77_every_path_refuted"
   ],
   "note": "numbers of sections are not negative in C77_section"
  },
  {
   "property": "C78",
   "status": "proved",
   "theorems": [
    "C78_find",
    "C78_unknown_tag",
    "C78_determined",
    "C78_line_determined",
    "C78_goes_on_refuted"
   ],
   "note": "without --format and --dump; a file is given as its opened storage and version or the exception of opening it"
  },
  {
   "property": "C79",
   "status": "proved",
   "theorems": [
    "C79_models",
    "C79_no_error",
    "C79_failure",
    "C79_complete",
    "C79_broken",
    "C79_ends_at_parse_error_refuted",
    "C79_ends"
   ],
   "note": "the context given to resolve_models is created for each record as parse_model_events does"
  },
  {
   "property": "C80",
   "status": "proved",
   "theorems": [
    "C80_listing",
    "C80_read_back_unique",
    "C80_opens",
    "C80_once",
    "C80_unlisted"
   ],
   "note": "for storages whose leaves are streams; opening the file (cli.py open_hwpfile) is C48 and C49"
  },
  {
   "property": "C81",
   "status": "proved",
   "theorems": [
    "C81_hidden",
    "C81_key",
    "C81_sha1",
    "C81_sha1_digits",
    "C81_sha1_error",
    "C81_decoded",
    "C81_other_size",
    "C81_tag_checked_refuted"
   ],
   "note": "AES decryption is a function argument"
  },
  {
   "property": "C82",
   "status": "proved",
   "theorems": [
    "C82_refused",
    "C82_converted",
    "C82_confined",
    "C82_default",
    "C82_previous_kept_refuted",
    "C82_input_kept_refuted",
    "C82_escape_refuted"
   ],
   "note": "the file system has no links and no permissions; the style sheets are function arguments"
  },
  {
   "property": "C83",
   "status": "proved",
   "theorems": [
    "C83_refused",
    "C83_file",
    "C83_unwritable",
    "C83_stdout",
    "C83_status",
    "C83_previous_kept_refuted"
   ],
   "note": "the terminal wrappers for css and xml (utils.py 263-320) are C43"
  },
  {
   "property": "C84",
   "status": "proved",
   "theorems": [
    "C84_document",
    "C84_only_text",
    "C84_plain",
    "C84_printable",
    "C84_separators_dropped",
    "C84_words_apart_refuted"
   ],
   "note": "the XSLT processor is modelled for this style sheet only; sections with several section definitions are not covered"
  },
  {
   "property": "C85",
   "status": "proved",
   "theorems": [
    "C85_history_does_not_matter",
    "C85_same_events",
    "C85_declaration",
    "C85_kept"
   ],
   "note": "each read is consumed to its end before the next starts; the declaration classes themselves are not changed at run time; the value of a read is handed out as an immutable value: what a caller does to it is not modelled"
  },
  {
   "property": "C86",
   "status": "proved",
   "theorems": [
    "C86_paragraph",
    "C86_paragraph_own",
    "C86_text",
    "C86_text_own",
    "C86_text_marks",
    "C86_border_values",
    "C86_borders",
    "C86_table_borders",
    "C86_pictures",
    "C86_paragraphs",
    "C86_page_text",
    "C86_same_text",
    "C86_bold_of_style",
    "C86_bold_refuted",
    "C86_names_needed_refuted",
    "C86_bullet_refuted",
    "C86_fields_refuted",
    "C86_dash_refuted",
    "C86_headers_refuted"
   ],
   "note": "lengths (computed by XSLT in floating point) and style attributes are arbitrary functions; XML and CSS syntax of the output is not modelled, rules are given as selectors and declarations; names of styles must be identifiers of CSS, different, and none of the class names used otherwise"
  },
  {
   "property": "C87",
   "status": "proved",
   "theorems": [
    "C87_paragraph",
    "C87_paragraph_own",
    "C87_text",
    "C87_text_own",
    "C87_tables",
    "C87_drawings",
    "C87_places",
    "C87_pictures",
    "C87_notes",
    "C87_fonts",
    "C87_pages",
    "C87_section_page",
    "C87_defined",
    "C87_in_order",
    "C87_same_text",
    "C87_one_file",
    "C87_color_refuted",
    "C87_after_control_refuted",
    "C87_latin_font_refuted",
    "C87_not_bold_refuted",
    "C87_line_height_refuted",
    "C87_section_page_refuted",
    "C87_style_names_refuted",
    "C87_reserved_names_refuted",
    "C87_border_words_refuted",
    "C87_covered_cells_refuted",
    "C87_same_text_refuted",
    "C87_fonts_refuted"
   ],
   "note": "lengths (computed by XSLT in floating point) and places of drawings are arbitrary functions; the fixed styles are modelled by name, family and parent; XML syntax of the output is not modelled"
  },
  {
   "property": "C88",
   "status": "proved",
   "theorems": [
    "C88_document",
    "C88_opendocument",
    "C88_opendocument_text",
    "C88_page",
    "C88_page_text",
    "C88_alignment_bits",
    "C88_paragraph_bytes",
    "C88_charshape_bytes"
   ],
   "note": "joins C67, C72, C86 and C87; tables with one body each and style names that stay different are assumed as in C86 and C87; which text has which character shape is a fact about the tree (C62)"
  },
  {
   "property": "C89",
   "status": "proved",
   "theorems": [
    "C89_paragraph",
    "C89_text",
    "C89_pages",
    "C89_tables",
    "C89_drawings",
    "C89_lines",
    "C89_html_paragraph",
    "C89_html_text",
    "C89_html_pages",
    "C89_numbers",
    "C89_moved_refuted"
   ],
   "note": "joins C86 and C87 with a model of floating-point arithmetic; how the XSLT processor prints a number is a premise, met by fifteen digits (C89_numbers); widths of bullets and places of drawings are not covered"
  },
  {
   "property": "C90",
   "status": "proved",
   "theorems": [
    "C90_pages",
    "C90_html_pages",
    "C90_paragraphs",
    "C90_html_paragraphs",
    "C90_page_bytes",
    "C90_shape_bytes"
   ],
   "note": "follows the records of C88 to the lengths of C89; sizes of letters and tables are followed from the nodes only (C89)"
  },
  {
   "property": "C91",
   "status": "proved",
   "theorems": [
    "C91_refused",
    "C91_package",
    "C91_broken",
    "C91_unwritable",
    "C91_default",
    "C91_input_kept",
    "C91_single_file",
    "C91_single_stdout",
    "C91_status_refuted",
    "C91_input_kept_refuted"
   ],
   "note": "names of streams are such that a zip file and its manifest can hold them (bindata_named); option parsing, logging and the filters for a terminal are not modelled; the refuted theorems show what does not hold"
  },
  {
   "property": "C92",
   "status": "proved",
   "theorems": [
    "C92_find",
    "C92_find_default",
    "C92_models",
    "C92_determined",
    "C92_missing",
    "C92_unescape",
    "C92_escape_back",
    "C92_unescape_refuted",
    "C92_stdin",
    "C92_stdin_last_refuted"
   ],
   "note": "keys seqno, tagid, tagname, level, size, type, and for find filename and stream; --dump is not modelled; the refuted theorems show what does not hold"
  },
  {
   "property": "C93",
   "status": "proved",
   "theorems": [
    "C93_status",
    "C93_version",
    "C93_header",
    "C93_refused",
    "C93_xml_file",
    "C93_xml_stdout",
    "C93_xml_broken",
    "C93_xml_broken_stdout",
    "C93_unencodable",
    "C93_unwritable",
    "C93_format_refuted"
   ],
   "note": "what xmllint makes of the XML without --no-validate-wellformed is not modelled; C93_format_refuted shows what does not hold of --format"
  }
 ]
}
