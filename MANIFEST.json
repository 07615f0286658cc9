{
 "claims": [
  {
   "property": "C01",
   "status": "proved",
   "theorems": [
    "C01_word",
    "C01_unradix_radix",
    "C01_unradix_radix_small",
    "C01_radix_unradix",
    "C01_malformed"
   ],
   "note": "all integers and all words"
  },
  {
   "property": "C02",
   "status": "proved",
   "theorems": [
    "C02_round_trip",
    "C02_columns",
    "C02_numeral",
    "C02_reject",
    "C02_injective"
   ],
   "note": "round trip, columns, leading zeros, rejection, injectivity"
  },
  {
   "property": "C03",
   "status": "proved",
   "theorems": [
    "C03_round_trip",
    "C03_columns",
    "C03_reject",
    "C03_future_centuries_refuted"
   ],
   "note": "round trip for 1800-2099 as stated; C03_future_centuries_refuted: every designation of centuries 21-61 packs and reads back as a tracklet"
  },
  {
   "property": "C04",
   "status": "proved",
   "theorems": [
    "C04_round_trip",
    "C04_reject",
    "C04_other_years_refuted",
    "C04_letter"
   ],
   "note": "round trip 2025-2035 and rejection above the limit as stated; C04_other_years_refuted gives the failures outside"
  },
  {
   "property": "C05",
   "status": "proved",
   "theorems": [
    "C05_round_trip"
   ],
   "note": "with and without a number"
  },
  {
   "property": "C06",
   "status": "proved",
   "theorems": [
    "C06_number",
    "C06_number_fragment",
    "C06_provisional",
    "C06_A_with_number",
    "C06_provisional_fragment",
    "C06_columns",
    "C06_fragment_columns",
    "C06_number_columns",
    "C06_reject_number",
    "C06_reject_provisional",
    "C06_reject_fragment",
    "C06_interstellar_refuted",
    "C06_accepted_pairs_refuted"
   ],
   "note": "round trips, columns, rejections; _refuted theorems give the parts that fail (1I, type letter lost, half-months I and Z)"
  },
  {
   "property": "C07",
   "status": "proved",
   "theorems": [
    "C07_number",
    "C07_provisional",
    "C07_columns",
    "C07_number_columns",
    "C07_reject_number",
    "C07_reject_provisional",
    "C07_asteroid_satellites"
   ],
   "note": "round trips, columns, rejections"
  },
  {
   "property": "C08",
   "status": "proved",
   "theorems": [
    "C08_pack",
    "C08_unpack",
    "C08_ambiguous",
    "C08_eight_refuted",
    "C08_reject"
   ],
   "note": "exact ambiguity condition; 8 characters lose the first"
  },
  {
   "property": "C09",
   "status": "proved",
   "theorems": [
    "C09_twelve_columns"
   ],
   "note": "all triples"
  },
  {
   "property": "C10",
   "status": "proved",
   "theorems": [
    "C10_accept",
    "C10_reject",
    "C10_join"
   ],
   "note": "kinds are read off the identifier text by PackSpec.perm_kind/prov_kind"
  },
  {
   "property": "C11",
   "status": "proved",
   "theorems": [
    "C11_only_runtime_error",
    "C11_nonempty"
   ],
   "note": "all strings of code points below 256"
  },
  {
   "property": "C12",
   "status": "proved",
   "theorems": [
    "C12_unpack_pack"
   ],
   "note": "iff: PackSpec.lossy is the exact set of readable 12-column words (without newline) that are not written back"
  },
  {
   "property": "C13",
   "status": "proved",
   "theorems": [
    "C13_pack_unpack",
    "C13_domain",
    "C13_reject",
    "C13_injective",
    "C13_unpack_pack",
    "C13_above_93",
    "C13_malformed"
   ],
   "note": "multi-character arguments of packProgID are outside the statement"
  },
  {
   "property": "C14",
   "status": "proved",
   "theorems": [
    "C14_mpc",
    "C14_mps",
    "C14_unpack_pack",
    "C14_collision_refuted"
   ],
   "note": "exact set of surviving numbers; exact set of packed words that survive unpack-pack"
  },
  {
   "property": "C15",
   "status": "proved",
   "theorems": [
    "C15_packSigned",
    "C15_packSigned_blank",
    "C15_unPackSigned",
    "C15_unPackSigned_plus"
   ],
   "note": "text-level"
  },
  {
   "property": "C16",
   "status": "proved",
   "theorems": [
    "C16_left_right_centre",
    "C16_decimal",
    "C16_decimal_accepts",
    "C16_decimal_rejects",
    "C16_bad_code",
    "C16_second_pass_widens_refuted"
   ],
   "note": "all strings, widths, positions; the code comment about the second pass is refuted"
  },
  {
   "property": "C17",
   "status": "proved",
   "theorems": [
    "C17_schema_order",
    "C17_schema_children",
    "C17_tables",
    "C17_last_occurrences",
    "C17_master",
    "C17_make",
    "C17_required",
    "C17_counted",
    "C17_required_choice_refuted",
    "C17_required_incomplete_refuted"
   ],
   "note": "for every schema master from which the tables can be computed (allowed and required lists exactly), and the computed tables of the distributed master; _refuted: required lists miss mandatory members of a sequence and list alternatives of a choice"
  },
  {
   "property": "C18",
   "status": "proved",
   "theorems": [
    "C18_blanks",
    "C18_columns"
   ],
   "note": "all files; blank lines, blanks around cells and words, permuted columns of a section with distinct column names"
  },
  {
   "property": "C19",
   "status": "proved",
   "theorems": [
    "C19_records",
    "C19_values",
    "C19_required",
    "C19_required_blank_refuted"
   ],
   "note": "required names are checked in the header line only: C19_required_blank_refuted shows a row that leaves a required column empty"
  },
  {
   "property": "C20",
   "status": "proved",
   "theorems": [
    "C20_master_tables",
    "C20_lines",
    "C20_psvtoxml",
    "C20_shape",
    "C20_refused",
    "C20_complete_refuted"
   ],
   "note": "iff with a grammar of PSV files that has no state machine; C20_complete_refuted: a file may end inside a block, and a header may name obsBlock elements"
  },
  {
   "property": "C21",
   "status": "proved",
   "theorems": [
    "C21_too_many",
    "C21_fewer"
   ],
   "note": "the exception for too many fields is NameError, not RuntimeError (the message uses an undefined global)"
  },
  {
   "property": "C22",
   "status": "proved",
   "theorems": [
    "C22_types",
    "C22_round_trip",
    "C22_identity",
    "C22_psv_again",
    "C22_values",
    "C22_points_refuted",
    "C22_values_refuted",
    "C22_block_refuted",
    "C22_repeated_refuted"
   ],
   "note": "RoundSpec.writable is the set of trees; C22_*_refuted: trees outside it that are not preserved"
  },
  {
   "property": "C23",
   "status": "proved",
   "theorems": [
    "C23_second_call"
   ],
   "note": "every second file that starts with a version line fails, after any first conversion that produced an element"
  },
  {
   "property": "C24",
   "status": "proved",
   "theorems": [
    "C24_obs80_last_line",
    "C24_obs80_lost",
    "C24_obs80_line_ends",
    "C24_last_line",
    "C24_lines",
    "C24_line_ends"
   ],
   "note": "PSV reader"
  },
  {
   "property": "C25",
   "status": "proved",
   "theorems": [
    "C25_zipper",
    "C25_outline",
    "C25_succeeds",
    "C25_texts",
    "C25_texts_op",
    "C25_texts_list",
    "C25_pop",
    "C25_recursive_descent",
    "C25_copy_root",
    "C25_copy_negative_refuted",
    "C25_copy_depth"
   ],
   "note": "all sequences of operations; copyTree(-1), which the documentation offers, is always an error"
  },
  {
   "property": "C26",
   "status": "proved",
   "theorems": [
    "C26_decode",
    "C26_optical_columns",
    "C26_radar1_columns",
    "C26_radar2_columns",
    "C26_satellite_columns",
    "C26_rover_columns",
    "C26_long",
    "C26_width_and_note",
    "C26_exceptions",
    "C26_file_long_refuted",
    "C26_nonexistent_day_refuted",
    "C26_one_line_stops_all_refuted"
   ],
   "note": "exact characterisation of decoding; columns read back for all six kinds of line; _refuted: columns past 80 are ignored at file level, a nonexistent day raises ValueError and stops the whole conversion"
  },
  {
   "property": "C27",
   "status": "proved",
   "theorems": [
    "C27_parse",
    "C27_origin",
    "C27_file",
    "C27_pair",
    "C27_mismatch_refuted",
    "C27_orphan_refuted",
    "C27_lone"
   ],
   "note": "records handed on are exactly those of Mpc80Spec.records; _refuted: mismatched pairs raise NameError and nothing is written, an orphan first line drops the next record too"
  },
  {
   "property": "C28",
   "status": "proved",
   "theorems": [
    "C28_file",
    "C28_others",
    "C28_delay_copy",
    "C28_doppler_copy",
    "C28_delay_copy2",
    "C28_doppler_copy2",
    "C28_one_value_refuted",
    "C28_short_line_refuted"
   ],
   "note": "radar lines of at least 61 columns; _refuted: leading delay digits stay in the Doppler copy, a short (blank) line aborts the default mode"
  },
  {
   "property": "C29",
   "status": "proved",
   "theorems": [
    "C29_round_trip",
    "C29_whole_seconds_refuted",
    "C29_radar",
    "C29_radar_only",
    "C29_only",
    "C29_nonexistent_refuted",
    "C29_days"
   ],
   "note": "exact: 100 of the 10^6 fractions fail (C29_whole_seconds_refuted), all others round-trip; radar separately; accepted set characterised"
  },
  {
   "property": "C30",
   "status": "proved",
   "theorems": [
    "C30_round_trip",
    "C30_only",
    "C30_precision",
    "C30_range_refuted"
   ],
   "note": "five precisions, 12 columns; accepted set characterised exactly; floats modelled as exact rationals rounded to 53 bits; C30_range_refuted: hours are not range-checked"
  },
  {
   "property": "C31",
   "status": "proved",
   "theorems": [
    "C31_round_trip",
    "C31_only",
    "C31_range_refuted"
   ],
   "note": "five precisions, 12 columns, sign of zero kept; accepted set characterised exactly; C31_range_refuted: degrees are not range-checked"
  },
  {
   "property": "C32",
   "status": "proved",
   "theorems": [
    "C32_iso",
    "C32_ra",
    "C32_dec",
    "C32_refuted"
   ],
   "note": "range theorems for everything that comes from 80-column text; C32_refuted: arbitrary XML values can show 60"
  },
  {
   "property": "C33",
   "status": "proved",
   "theorems": [
    "C33_optical",
    "C33_radar",
    "C33_optical_80",
    "C33_radar_80",
    "C33_date_fits",
    "C33_ra_fits",
    "C33_dec_fits",
    "C33_width_refuted",
    "C33_others_refuted"
   ],
   "note": "every line written has its fields in the columns of Line80Spec and is 80 columns wide when the values fit; _refuted: too long values make wider lines, observations without 80-column form"
  },
  {
   "property": "C34",
   "status": "proved",
   "theorems": [
    "C34_back",
    "C34_blocks_back",
    "C34_catalogue",
    "C34_band",
    "C34_program",
    "C34_blank_band_refuted",
    "C34_band_alone_refuted",
    "C34_columns_57_65_refuted",
    "C34_catalogue_refuted",
    "C34_satellite_columns_refuted",
    "C34_radar_reference_refuted",
    "C34_mixed_block_refuted",
    "C34_headers_refuted",
    "C34_empty_block_refuted"
   ],
   "note": "whole files, headers or not, both ways; code tables; nine refuted variants. The XML is the element tree, its serialisation is not modelled"
  },
  {
   "property": "C35",
   "status": "proved",
   "theorems": [
    "C35_submit_file",
    "C35_general_file",
    "C35_submit_general",
    "C35_submit_general_files",
    "C35_unions_needed_refuted",
    "C35_blocks",
    "C35_no_submit",
    "C35_root_refuted",
    "C35_converse_refuted"
   ],
   "note": "schemas are computed from the master by a model of the XSLT and shown equal to the distributed files; every facet reading; xsi attributes not covered"
  },
  {
   "property": "C36",
   "status": "proved",
   "theorems": [
    "C36_permID_range",
    "C36_provID_range",
    "C36_permID_packs",
    "C36_provID_packs",
    "C36_trkSub_packs",
    "C36_permID_schema",
    "C36_provID_schema",
    "C36_trkSub_schema",
    "C36_packed_accepted",
    "C36_submission_permID",
    "C36_submission_provID",
    "C36_submission_trkSub",
    "C36_accepted_packed_refuted",
    "C36_packed_accepted_refuted"
   ],
   "note": "exact description of both languages and of the gap; facets of non-text types are arbitrary; XSD patterns read by XsdPattern.pattern"
  },
  {
   "property": "C37",
   "status": "proved",
   "theorems": [
    "C37_round",
    "C37_nothing_lost",
    "C37_same_named_in_order",
    "C37_tidy",
    "C37_again",
    "C37_one_root",
    "C37_one_root_list",
    "C37_interleaving_refuted",
    "C37_carriage_return_refuted"
   ],
   "note": "on trees (xmltodict's parse and unparse); the JSON text is C53; XML escaping not modelled; _refuted: order between differently named siblings, carriage returns in texts"
  },
  {
   "property": "C38",
   "status": "proved",
   "theorems": [
    "C38_temporary_files_removed",
    "C38_same_bytes",
    "C38_same_failure",
    "C38_utf8_lossless",
    "C38_latin1_lossless",
    "C38_utf8_plain",
    "C38_carriage_return_refuted",
    "C38_bytes_refuted"
   ],
   "note": "for every converter that reads its input as text in the input encoding; utf-8 and latin-1 proved lossless; _refuted: carriage returns on standard output, converters that read raw bytes"
  },
  {
   "property": "C39",
   "status": "proved",
   "theorems": [
    "C39_headerless",
    "C39_blocks",
    "C39_groups_exist",
    "C39_one_bad_record_refuted",
    "C39_trailing_headers_refuted",
    "C39_nested_blocks_refuted",
    "C39_lost_after_empty_block_refuted"
   ],
   "note": "mpc80coltoxml writes the document of DocSpec (rows, context, blocks) for headerless files and for files of header/data groups; the exceptions are proved as _refuted theorems."
  },
  {
   "property": "C40",
   "status": "proved",
   "theorems": [
    "C40_ra_seconds",
    "C40_ra_minutes",
    "C40_dec_seconds",
    "C40_dec_minutes",
    "C40_date",
    "C40_coarse",
    "C40_refuted"
   ],
   "note": "texts of arbitrary (non-80-column) values: nearest sexagesimal representation, or 60 in the seconds"
  },
  {
   "property": "C41",
   "status": "proved",
   "theorems": [
    "C41_general",
    "C41_submit",
    "C41_ades_general",
    "C41_ades_submit",
    "C41_block",
    "C41_data",
    "C41_context",
    "C41_header_parts",
    "C41_headerless",
    "C41_blocks",
    "C41_trailing_headers_refuted",
    "C41_nested_blocks_refuted",
    "C41_submit_80_refuted",
    "C41_submit_headerless_refuted",
    "C41_any_general",
    "C41_any_submit"
   ],
   "note": "iff characterisations for every facet interpretation F; structure of documents from 80 columns composed with C39; which texts are good values is left to F here; C41_any_* state the same for records with arbitrary children (order, repetition)"
  },
  {
   "property": "C42",
   "status": "proved",
   "theorems": [
    "C42_layout",
    "C42_bars",
    "C42_bars_refuted"
   ],
   "note": "shape of every printed file; the alignment of bars needs the first value of a column to be the widest before its point, the exception is C42_bars_refuted"
  },
  {
   "property": "C43",
   "status": "proved",
   "theorems": [
    "C43_file",
    "C43_blocks",
    "C43_catalogue_refuted",
    "C43_station_refuted",
    "C43_reference_refuted",
    "C43_interstellar_refuted",
    "C43_old_comet_refuted",
    "C43_ra_refuted",
    "C43_declination_refuted",
    "C43_magnitude_refuted"
   ],
   "note": "iff for files without headers and for files of header/observation blocks, for every reading of the facets that is right for strings, decimals, integers and UTC times (C43_reading: there is one); the C43_*_refuted theorems are lines that are converted to invalid documents"
  },
  {
   "property": "C44",
   "status": "proved",
   "theorems": [
    "C44_document",
    "C44_parts",
    "C44_precisions",
    "C44_default_precisions",
    "C44_every_record_refuted",
    "C44_empty_block_refuted",
    "C44_offset_added_refuted"
   ],
   "note": "iff for every tree and every setting; the lines of single records are those of C33; the C44_*_refuted theorems show records without lines, records written twice and the treatment of station 244"
  },
  {
   "property": "C45",
   "status": "proved",
   "theorems": [
    "C45_pair",
    "C45_distrib_pair",
    "C45_accept",
    "C45_files",
    "C45_annotations",
    "C45_named_refuted",
    "C45_unknown_refuted",
    "C45_distrib_refuted"
   ],
   "note": "equality of the schema trees after removing annotations, for all masters meeting pair_master (checked for adesmaster.xml); escaping of markup characters by the text-producing style sheets is not modelled (the master has none)"
  },
  {
   "property": "C46",
   "status": "proved",
   "theorems": [
    "C46_reports",
    "C46_not_xml",
    "C46_docs_submit",
    "C46_docs_general",
    "C46_distribution",
    "C46_valades",
    "C46_valades_submit",
    "C46_valades_files",
    "C46_declaration_refuted",
    "C46_declaration_found"
   ],
   "note": "lxml is a parameter (parse, compile) assumed to validate the language defined in XsdSpec; terminal output is not modelled; files are Latin-1 code points"
  },
  {
   "property": "C47",
   "status": "proved",
   "theorems": [
    "C47_described",
    "C47_general",
    "C47_submit",
    "C47_version",
    "C47_any_version",
    "C47_version_refuted",
    "C47_tail_refuted",
    "C47_dropped_refuted",
    "C47_blocks_refuted"
   ],
   "note": "iff for every described file and every facet reading F; C47_described shows that exactly the converted files are described; the C47_*_refuted theorems list what the converter lets pass"
  },
  {
   "property": "C48",
   "status": "proved",
   "theorems": [
    "C48_round_trip",
    "C48_submit",
    "C48_identity",
    "C48_points_refuted",
    "C48_residual_refuted",
    "C48_unreadable_refuted",
    "C48_lost_refuted",
    "C48_said",
    "C48_same_file",
    "C48_local"
   ],
   "note": "for every facet reading F that respects string facets and the lexical spaces of the numeric types; documents with local use elements and blank optional texts are covered by C48_said (SaidSpec.said is the document without them); psv_can (LexSpec) lists what PSV cannot express, and the C48_*_refuted theorems show a valid document for each clause, among them a time with a bar let through by the unescaped dot of LeapSecondsHelp"
  },
  {
   "property": "C49",
   "status": "proved",
   "theorems": [
    "C49_record",
    "C49_offset",
    "C49_radar",
    "C49_document",
    "C49_columns",
    "C49_every_submission_refuted",
    "C49_distinct_refuted"
   ],
   "note": "iff for every submit-valid document under every facet reading with reads_values; hypothesis plain_time excludes leap seconds (refused by strptime, see C49_every_submission_refuted) and times dateTime allows beyond it (hour 24, years before 1600); C49_distinct_refuted shows different valid submissions that are written alike (times a day apart, cut-off digits and trkSub characters)"
  },
  {
   "property": "C50",
   "status": "proved",
   "theorems": [
    "C50_name",
    "C50_read",
    "C50_returned",
    "C50_number",
    "C50_document",
    "C50_blocks",
    "C50_merged",
    "C50_header",
    "C50_every_record_refuted",
    "C50_same_record_refuted",
    "C50_same_header_refuted",
    "C50_valid_again_refuted",
    "C50_same_position_refuted",
    "C50_next_record_refuted",
    "C50_whose_header_refuted",
    "C50_artificial_refuted"
   ],
   "note": "iff for the legible lines and exact description of what comes back, for every submit-valid document under every facet reading with reads_values; documents with and without header lines (C50_blocks, C50_document); records of one line and of two lines (pos1 given, position fitting its columns); blocks of which nothing is read are covered by C50_merged; artificial satellites are not covered by the positive theorems (C50_artificial_refuted: lost, or read as something else); C50_whose_header_refuted: when nothing of a block is read, the next block's records come back under its header; C50_same_header_refuted: a submitter with the institution first (allowed by xs:all) comes back with the two swapped; C50_valid_again_refuted: a telescope without a name is lost, so the document that comes back is not valid; C50_every_record_refuted and C50_same_record_refuted show valid records that are lost or changed; C50_same_position_refuted: a position longer than its columns is cut off or takes the record with it; C50_next_record_refuted: a record of a roving observer at another station than 247 is lost together with the record after it"
  },
  {
   "property": "C51",
   "status": "proved",
   "theorems": [
    "C51_elements",
    "C51_reads_back",
    "C51_content_refuted"
   ],
   "note": "exact order and depth, and injectivity, for all listable documents; comments and processing instructions are not modelled (their tag prints as a function object); C51_content_refuted: elements inside the values of an optical record are not shown"
  },
  {
   "property": "C52",
   "status": "proved",
   "theorems": [
    "C52_declared_encoding",
    "C52_declared_in_ascii",
    "C52_declared_in_ebcdic",
    "C52_refused",
    "C52_unusual_orders",
    "C52_undeclared_refuted",
    "C52_soon_refuted",
    "C52_blanks_refuted",
    "C52_elsewhere_refuted"
   ],
   "note": "exact for ten ways of storing a text, ASCII-compatible files and EBCDIC; Python's utf-7 codec is a parameter and files that begin with +ADw are only covered by C52_refused; CPython's buffered StreamReader is modelled (compared with CPython on 300 files); C52_undeclared_refuted, C52_soon_refuted, C52_blanks_refuted, C52_elsewhere_refuted show files where the report differs from what XML says"
  },
  {
   "property": "C53",
   "status": "proved",
   "theorems": [
    "C53_reads",
    "C53_one_value",
    "C53_line_breaks",
    "C53_not_json",
    "C53_writes",
    "C53_there_and_back",
    "C53_as_it_is",
    "C53_is_json",
    "C53_round",
    "C53_other_layout",
    "C53_again",
    "C53_text_line_ends",
    "C53_number_text",
    "C53_same_key_refuted"
   ],
   "note": "exact characterisation of the reader against an inductive grammar, for Latin-1 texts; a \\u escape of a character above U+00FF has no result in the model, the recursion limit is not modelled, Python's reading of number literals and str() of containers are parameters that do not matter; C53_same_key_refuted: a repeated key loses a record"
  }
 ]
}