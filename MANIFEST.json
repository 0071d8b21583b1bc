{
 "claims": [
  {
   "property": "C01",
   "status": "proved",
   "theorems": [
    "C01_unframed_lines_are_refused",
    "C01_accepted_lines_are_framed"
   ],
   "note": ""
  },
  {
   "property": "C02",
   "status": "proved",
   "theorems": [
    "C02_acceptance"
   ],
   "note": ""
  },
  {
   "property": "C03",
   "status": "proved",
   "theorems": [
    "C03_identification",
    "C03_identification_any_line",
    "C03_unknown_section",
    "C03_sections_count"
   ],
   "note": ""
  },
  {
   "property": "C04",
   "status": "proved",
   "theorems": [
    "C04_trailing_whitespace"
   ],
   "note": ""
  },
  {
   "property": "C05",
   "status": "proved",
   "theorems": [
    "C05_leading_whitespace_refuted",
    "C05_read_is_by_columns_of_the_given_line",
    "C05_parse_never_true"
   ],
   "note": "The claim is false of the code: refuted by three explicit lines; two theorems say what does hold."
  },
  {
   "property": "C06",
   "status": "proved",
   "theorems": [
    "C06_fields_are_columns"
   ],
   "note": ""
  },
  {
   "property": "C07",
   "status": "proved",
   "theorems": [
    "C07_first_and_last_fields"
   ],
   "note": ""
  },
  {
   "property": "C08",
   "status": "proved",
   "theorems": [
    "C08_read",
    "C08_parse",
    "C08_decode",
    "C08_json",
    "C08_read_file",
    "C08_search"
   ],
   "note": ""
  },
  {
   "property": "C09",
   "status": "proved",
   "theorems": [
    "C09_when_read_raises",
    "C09_read_raises_only_ValueError"
   ],
   "note": ""
  },
  {
   "property": "C10",
   "status": "proved",
   "theorems": [
    "C10_layout_selection",
    "C10_layout_depends_on_type_columns_only"
   ],
   "note": ""
  },
  {
   "property": "C11",
   "status": "proved",
   "theorems": [
    "C11_new_record",
    "C11_hasCont_implies_primary",
    "C11_primary_hasCont_after_read"
   ],
   "note": ""
  },
  {
   "property": "C12",
   "status": "proved",
   "theorems": [
    "C12_never_primary",
    "C12_single_layout_types_always_read",
    "C12_airway_restrictions",
    "C12_primary_restriction_layout_refuted"
   ],
   "note": "The last theorem shows the library reading its own sample of a primary EU record as a continuation record."
  },
  {
   "property": "C13",
   "status": "proved",
   "theorems": [
    "C13_reuse",
    "C13_reuse_single_layout",
    "C13_reuse_refuted"
   ],
   "note": "Holds for section codes with a continuation column; refuted for EU (fields) and for TC (primary())."
  },
  {
   "property": "C14",
   "status": "proved",
   "theorems": [
    "C14_failed_read",
    "C14_raw_and_fields_agree_refuted"
   ],
   "note": "The expectation that raw and fields belong to the same line is refuted."
  },
  {
   "property": "C15",
   "status": "proved",
   "theorems": [
    "C15_displayed_section_code",
    "C15_displayed_is_ident_refuted"
   ],
   "note": "The expectation that the displayed code is the section read is refuted."
  },
  {
   "property": "C16",
   "status": "proved",
   "theorems": [
    "C16_cycle_date",
    "C16_injective",
    "C16_failure"
   ],
   "note": ""
  },
  {
   "property": "C17",
   "status": "proved",
   "theorems": [
    "C17_altitude",
    "C17_zero_altitude_refuted",
    "C17_other_values"
   ],
   "note": "All-zero altitudes are refuted: no number is shown."
  },
  {
   "property": "C18",
   "status": "proved",
   "theorems": [
    "C18_longest_runway",
    "C18_zero_and_other_values"
   ],
   "note": ""
  },
  {
   "property": "C19",
   "status": "proved",
   "theorems": [
    "C19_frequency"
   ],
   "note": ""
  },
  {
   "property": "C20",
   "status": "proved",
   "theorems": [
    "C20_course",
    "C20_distance",
    "C20_time"
   ],
   "note": ""
  },
  {
   "property": "C21",
   "status": "proved",
   "theorems": [
    "C21_courses_are_numbers_refuted",
    "C21_course_acceptance"
   ],
   "note": "The claim is false; the second theorem says exactly which values are accepted."
  },
  {
   "property": "C22",
   "status": "proved",
   "theorems": [
    "C22_magnetic_variation",
    "C22_injective",
    "C22_blank",
    "C22_outcomes"
   ],
   "note": ""
  },
  {
   "property": "C23",
   "status": "proved",
   "theorems": [
    "C23_zones_west",
    "C23_zones_east_refuted",
    "C23_what_is_shown",
    "C23_other_values"
   ],
   "note": "Refuted for the letters A to M and Z."
  },
  {
   "property": "C24",
   "status": "proved",
   "theorems": [
    "C24_waypoint_description",
    "C24_total"
   ],
   "note": ""
  },
  {
   "property": "C25",
   "status": "proved",
   "theorems": [
    "C25_known_codes",
    "C25_blank",
    "C25_other_values",
    "C25_never_bad_value"
   ],
   "note": ""
  },
  {
   "property": "C26",
   "status": "proved",
   "theorems": [
    "C26_every_section_is_named",
    "C26_only_TN_has_no_records"
   ],
   "note": ""
  },
  {
   "property": "C27",
   "status": "proved",
   "theorems": [
    "C27_route_types",
    "C27_no_route_types",
    "C27_section_only",
    "C27_airports_and_heliports"
   ],
   "note": ""
  },
  {
   "property": "C28",
   "status": "proved",
   "theorems": [
    "C28_round_trip",
    "C28_text_from_files",
    "C28_surrogates_refuted"
   ],
   "note": "Proved for text without adjacent lone surrogates (all text read from files); refuted otherwise."
  },
  {
   "property": "C29",
   "status": "proved",
   "theorems": [
    "C29_complete",
    "C29_repeated_names",
    "C29_listed_layouts_exist",
    "C29_lost_values_refuted",
    "C29_injective_refuted"
   ],
   "note": "Proved for layouts with distinct names; refuted by explicit lines for the six that repeat one."
  },
  {
   "property": "C30",
   "status": "proved",
   "theorems": [
    "C30_pretty"
   ],
   "note": ""
  },
  {
   "property": "C31",
   "status": "proved",
   "theorems": [
    "C31_rows"
   ],
   "note": ""
  },
  {
   "property": "C32",
   "status": "proved",
   "theorems": [
    "C32_decode_output",
    "C32_json_output",
    "C32_parse_output"
   ],
   "note": ""
  },
  {
   "property": "C33",
   "status": "proved",
   "theorems": [
    "C33_silence_refuted",
    "C33_output_of_parsed_lines",
    "C33_chatty_fields",
    "C33_output_of_refused_lines",
    "C33_output_before_exceptions"
   ],
   "note": "Refuted; four further theorems say exactly what is printed."
  },
  {
   "property": "C34",
   "status": "proved",
   "theorems": [
    "C34_parse_true",
    "C34_parse_false",
    "C34_parse_read_raises",
    "C34_parse_first_failing_field",
    "C34_cases"
   ],
   "note": ""
  },
  {
   "property": "C35",
   "status": "proved",
   "theorems": [
    "C35_search_prints_matching_records",
    "C35_reports",
    "C35_search_stops_at_an_exception",
    "C35_search_without_file"
   ],
   "note": ""
  },
  {
   "property": "C36",
   "status": "proved",
   "theorems": [
    "C36_one_filter",
    "C36_order_and_repetition",
    "C36_more_filters_find_no_more",
    "C36_shorter_filter_finds_more",
    "C36_empty_filters"
   ],
   "note": "Includes the surprise that a tuple of strings filters nothing."
  },
  {
   "property": "C37",
   "status": "proved",
   "theorems": [
    "C37_line_by_line",
    "C37_first_exception",
    "C37_cases",
    "C37_concatenation",
    "C37_no_file"
   ],
   "note": ""
  },
  {
   "property": "C38",
   "status": "proved",
   "theorems": [
    "C38_file_by_file",
    "C38_first_exception",
    "C38_unreadable_entry",
    "C38_no_folder",
    "C38_paths"
   ],
   "note": ""
  },
  {
   "property": "C39",
   "status": "proved",
   "theorems": [
    "C39_lines",
    "C39_newlines_read_file",
    "C39_newlines_search"
   ],
   "note": ""
  },
  {
   "property": "C40",
   "status": "proved",
   "theorems": [
    "C40_decoding_is_stable",
    "C40_runs",
    "C40_table_growth"
   ],
   "note": ""
  },
  {
   "property": "C41",
   "status": "proved",
   "theorems": [
    "C41_hidden_columns",
    "C41_rebuild",
    "C41_hidden_columns_do_not_matter",
    "C41_nothing_lost_refuted"
   ],
   "note": "The columns in no field are listed per layout; the expectation that no data is lost is refuted by a sample of the library itself."
  },
  {
   "property": "C42",
   "status": "proved",
   "theorems": [
    "C42_overlaps",
    "C42_no_overlap_refuted"
   ],
   "note": "The 14 overlapping layouts are listed."
  },
  {
   "property": "C43",
   "status": "proved",
   "theorems": [
    "C43_when_decode_exits",
    "C43_message"
   ],
   "note": ""
  },
  {
   "property": "C44",
   "status": "proved",
   "theorems": [
    "C44_which_decoders_raise",
    "C44_exactly_when",
    "C44_fields_are_wide",
    "C44_ascii_numbers",
    "C44_all_of_them_do"
   ],
   "note": ""
  },
  {
   "property": "C45",
   "status": "proved",
   "theorems": [
    "C45_displayed_continuation",
    "C45_displayed_application_type",
    "C45_displayed_refuted"
   ],
   "note": "Refuted for PT, TAA continuations and (application type) EP; proved for all others."
  },
  {
   "property": "C46",
   "status": "proved",
   "theorems": [
    "C46_decode_depends_on_fields_and_section",
    "C46_json_depends_on_fields"
   ],
   "note": ""
  },
  {
   "property": "C47",
   "status": "proved",
   "theorems": [
    "C47_holding_time",
    "C47_blank_and_other_values",
    "C47_message"
   ],
   "note": ""
  },
  {
   "property": "C48",
   "status": "proved",
   "theorems": [
    "C48_cycle_date_refuted",
    "C48_ascii_cycle_date"
   ],
   "note": "Refuted for Unicode numerals, proved for ASCII lines."
  },
  {
   "property": "C49",
   "status": "proved",
   "theorems": [
    "C49_float_fields"
   ],
   "note": ""
  },
  {
   "property": "C50",
   "status": "proved",
   "theorems": [
    "C50_name_format",
    "C50_waypoint_type",
    "C50_waypoint_type_N",
    "C50_boundary_via",
    "C50_usage"
   ],
   "note": ""
  },
  {
   "property": "C51",
   "status": "proved",
   "theorems": [
    "C51_shown_as_is",
    "C51_all_decoders"
   ],
   "note": ""
  },
  {
   "property": "C52",
   "status": "proved",
   "theorems": [
    "C52_route_identifiers",
    "C52_approach_identifier",
    "C52_sequence_number",
    "C52_path_and_terminator",
    "C52_turn_direction_valid",
    "C52_navaid_theta_rho",
    "C52_waypoint_name",
    "C52_speed_limit",
    "C52_helicopter_procedure_course"
   ],
   "note": ""
  },
  {
   "property": "C53",
   "status": "proved",
   "theorems": [
    "C53_int",
    "C53_float",
    "C53_unambiguous",
    "C53_rounding",
    "C53_division",
    "C53_format_fixed",
    "C53_format_padded"
   ],
   "note": ""
  },
  {
   "property": "C54",
   "status": "proved",
   "theorems": [
    "C54_course",
    "C54_distance",
    "C54_time",
    "C54_vor_frequency",
    "C54_frequency",
    "C54_tenths",
    "C54_magnetic_variation",
    "C54_cycle_date"
   ],
   "note": ""
  },
  {
   "property": "C55",
   "status": "proved",
   "theorems": [
    "C55_shortest",
    "C55_reads_back",
    "C55_injective",
    "C55_decoded_floats"
   ],
   "note": "Proved of repr for all floats; the decoders' floats are among them."
  },
  {
   "property": "C56",
   "status": "proved",
   "theorems": [
    "C56_decoding",
    "C56_encoding",
    "C56_ascii",
    "C56_concatenation",
    "C56_lone_byte"
   ],
   "note": ""
  },
  {
   "property": "C57",
   "status": "proved",
   "theorems": [
    "C57_text_of_a_file",
    "C57_undecodable_file",
    "C57_undecodable_in_folder",
    "C57_columns_are_characters",
    "C57_byte_order_mark_refuted",
    "C57_json_of_files"
   ],
   "note": "For a UTF-8 locale; the byte order mark is a refuted expectation."
  },
  {
   "property": "C58",
   "status": "proved",
   "theorems": [
    "C58_repr",
    "C58_repr_of_list",
    "C58_one_value",
    "C58_ordinary_text",
    "C58_summary_of_lists",
    "C58_summary_of_texts",
    "C58_text_or_list_refuted"
   ],
   "note": "Literals with the escapes of SpecLiteral.v; text-or-list ambiguity is a refuted expectation."
  },
  {
   "property": "C59",
   "status": "proved",
   "theorems": [
    "C59_import",
    "C59_decoders",
    "C59_all_functions",
    "C59_field"
   ],
   "note": "The interpreter (PyEval.v) and the parsed text (SrcDecoder.v) are the trusted parts here, instead of the hand translation in Decoder.v."
  },
  {
   "property": "C60",
   "status": "proved",
   "theorems": [
    "C60_read",
    "C60_application_type",
    "C60_attributes",
    "C60_records"
   ],
   "note": "As C59."
  },
  {
   "property": "C61",
   "status": "proved",
   "theorems": [
    "C61_new",
    "C61_read",
    "C61_validate",
    "C61_primary",
    "C61_decode",
    "C61_json"
   ],
   "note": "As C59; `output` and `single_line` are truth values."
  },
  {
   "property": "C62",
   "status": "proved",
   "theorems": [
    "C62_parse",
    "C62_search",
    "C62_read_file",
    "C62_read_folder"
   ],
   "note": "As C59; the names in a folder are taken when the loop starts."
  },
  {
   "property": "C63",
   "status": "proved",
   "theorems": [
    "C63_session",
    "C63_earlier_calls",
    "C63_exceptions",
    "C63_names"
   ],
   "note": "As C59; the caller catches every exception, also SystemExit, and goes on."
  },
  {
   "property": "C64",
   "status": "proved",
   "theorems": [
    "C64_same_name_same_columns",
    "C64_always_refuted"
   ],
   "note": "The 29 exceptions (SpecNames.v) are exactly the names that move."
  },
  {
   "property": "C65",
   "status": "proved",
   "theorems": [
    "C65_same_name_same_decoder",
    "C65_always_refuted"
   ],
   "note": "Names are compared without a number in parentheses at their end; the 11 exceptions are exactly the names with more than one decoder."
  },
  {
   "property": "C66",
   "status": "proved",
   "theorems": [
    "C66_widths",
    "C66_always_refuted"
   ],
   "note": "Decoders used at least three times; exceptions as listed in odd_widths."
  },
  {
   "property": "C67",
   "status": "proved",
   "theorems": [
    "C67_order"
   ],
   "note": "Exceptions: HK and PK continuation, R."
  },
  {
   "property": "C68",
   "status": "proved",
   "theorems": [
    "C68_trees",
    "C68_only",
    "C68_unambiguous",
    "C68_expressions",
    "C68_spelling",
    "C68_files"
   ],
   "note": "Texts in ASCII; the grammar covers the constructs the package uses (PyGrammar.v). What the tokens of a text are is C71."
  },
  {
   "property": "C69",
   "status": "proved",
   "theorems": [
    "C69_table",
    "C69_straight",
    "C69_read_back",
    "C69_returned",
    "C69_switch"
   ],
   "note": "For lines of the characters 32..126. prettytable's layout is modelled in Console.v (not code of /repo)."
  },
  {
   "property": "C70",
   "status": "proved",
   "theorems": [
    "C70_files",
    "C70_lines",
    "C70_shows",
    "C70_search",
    "C70_whole_lines_refuted"
   ],
   "note": "For lines of the characters 32..126, with and without termcolor's escape sequences."
  },
  {
   "property": "C71",
   "status": "proved",
   "theorems": [
    "C71_tokens",
    "C71_unique",
    "C71_modules",
    "C71_files",
    "C71_blocks"
   ],
   "note": "Tokens of the part of Python in use: no tabs, no backslash at line ends, decimal integers only, no string prefix but f; texts with anything else have no tokens by the definition and are refused by the lexer."
  },
  {
   "property": "C72",
   "status": "proved",
   "theorems": [
    "C72_changed",
    "C72_layout",
    "C72_edit",
    "C72_table"
   ],
   "note": "Columns of one field only; key columns (section, continuation number, application type, frame) and columns shown by two fields are excluded, C72_ex shows why."
  },
  {
   "property": "C73",
   "status": "proved",
   "theorems": [
    "C73_field",
    "C73_fields",
    "C73_section_code_refuted"
   ],
   "note": "For files in which read raises on no line. Refuted for the section code of airport and heliport records."
  },
  {
   "property": "C74",
   "status": "proved",
   "theorems": [
    "C74_parse",
    "C74_read_file",
    "C74_read_folder",
    "C74_search",
    "C74_console",
    "C74_utf8",
    "C74_lone_surrogate_refuted"
   ],
   "note": "UTF-8 output. Refuted for lone surrogates passed by the caller."
  },
  {
   "property": "C75",
   "status": "proved",
   "theorems": [
    "C75_text_tells_code",
    "C75_numbers",
    "C75_always_refuted",
    "C75_unknown_refuted"
   ],
   "note": "The fields of code_fields (C25) and number_fns; for numbers, values of digits only. Refuted for TCA/TMA, E/blank and for unknown codes."
  },
  {
   "property": "C76",
   "status": "proved",
   "theorems": [
    "C76_fields",
    "C76_console",
    "C76_json",
    "C76_table",
    "C76_section_refuted"
   ],
   "note": "Record lines as in C06. For JSON, layouts without repeated names (C41). That the section is the same is refuted for procedures."
  },
  {
   "property": "C77",
   "status": "proved",
   "theorems": [
    "C77_session",
    "C77_two_names",
    "C77_apart"
   ],
   "note": "Variables hold references to objects on a heap (PyHeap.v); arguments are texts, booleans and filters as in C62."
  },
  {
   "property": "C78",
   "status": "proved",
   "theorems": [
    "C78_again",
    "C78_picked",
    "C78_order",
    "C78_read",
    "C78_leading_space_refuted",
    "C78_question_refuted"
   ],
   "note": "Files without leading white space on lines, questions on one line (asked_on_one_line). Refuted without these."
  },
  {
   "property": "C79",
   "status": "proved",
   "theorems": [
    "C79_every_layout",
    "C79_every_layout_refuted",
    "C79_after_another",
    "C79_any_values",
    "C79_one_line",
    "C79_fills"
   ],
   "note": "Values as long as their fields that agree on shared columns and keep the columns that tell the kind of record. Refuted for layouts of primary airway restrictions with new records."
  },
  {
   "property": "C80",
   "status": "proved",
   "theorems": [
    "C80_enough",
    "C80_fails",
    "C80_call"
   ],
   "note": "A print that fails shows nothing of its text."
  },
  {
   "property": "C81",
   "status": "proved",
   "theorems": [
    "C81_closed",
    "C81_after",
    "C81_failed"
   ],
   "note": "Files opened with open(); os.scandir gives a list of names in the interpreter, so its iterator is not covered."
  },
  {
   "property": "C82",
   "status": "proved",
   "theorems": [
    "C82_answer",
    "C82_call",
    "C82_alike"
   ],
   "note": "By C77 about the text of the package. Disks do not change during a session."
  },
  {
   "property": "C83",
   "status": "proved",
   "theorems": [
    "C83_description",
    "C83_route",
    "C83_route_kind_refuted",
    "C83_waypoint_type",
    "C83_name_format",
    "C83_second_column_refuted",
    "C83_boundary_via",
    "C83_usage"
   ],
   "note": "Refuted for the second column of a waypoint type whose first column is in its list, and for two texts of route types."
  },
  {
   "property": "C84",
   "status": "proved",
   "theorems": [
    "C84_pages",
    "C84_ascii",
    "C84_ascii_folder",
    "C84_undecodable",
    "C84_refused",
    "C84_file",
    "C84_latin_total",
    "C84_gained_refuted"
   ],
   "note": "Code pages of single bytes that extend ASCII (Latin-1, Windows-1252, ASCII); refuted that they take fewer lines for records than UTF-8."
  },
  {
   "property": "C85",
   "status": "proved",
   "theorems": [
    "C85_lines",
    "C85_folder",
    "C85_search",
    "C85_shown_refuted"
   ],
   "note": "Refuted for what is shown before an exception."
  },
  {
   "property": "C86",
   "status": "proved",
   "theorems": [
    "C86_decode",
    "C86_json",
    "C86_parse",
    "C86_read_file",
    "C86_truthy_refuted"
   ],
   "note": "By the text of the package (PyEval); values that can change (objects with attributes, dictionaries) are left out."
  },
  {
   "property": "C87",
   "status": "proved",
   "theorems": [
    "C87_cut",
    "C87_cut_search",
    "C87_longer_refuted",
    "C87_seam",
    "C87_both_lost",
    "C87_join_refuted"
   ],
   "note": "For lines of at most 132 characters besides white space at the end; refuted without that, and for joined files without a newline between them."
  },
  {
   "property": "C88",
   "status": "proved",
   "theorems": [
    "C88_silent",
    "C88_read_file",
    "C88_search",
    "C88_folder",
    "C88_known_section_refuted"
   ],
   "note": "C88_silent for lines without white space at the beginning (C05). Refuted that a record of a known section always leaves a trace."
  },
  {
   "property": "C89",
   "status": "proved",
   "theorems": [
    "C89_fate",
    "C89_every_line",
    "C89_silent"
   ],
   "note": "For a new Record; C02, C09 and C88_silent without their condition on the beginning of the line."
  },
  {
   "property": "C90",
   "status": "proved",
   "theorems": [
    "C90_read",
    "C90_one_object",
    "C90_restrictions_refuted"
   ],
   "note": "Refuted for airway restrictions (section EU) when one object held the continuation number 0 or 1 and the other did not."
  },
  {
   "property": "C91",
   "status": "proved",
   "theorems": [
    "C91_count",
    "C91_idle",
    "C91_converse_refuted"
   ],
   "note": "If read_file ends without an exception; refuted that it does whenever search does. Tables are counted as what output=True prints more than output=False."
  },
  {
   "property": "C92",
   "status": "proved",
   "theorems": [
    "C92_lost",
    "C92_added",
    "C92_blank_refuted"
   ],
   "note": "White space after a record changes nothing (C04); refuted for white space before it (C05). A loss made up for by an addition elsewhere is not noticed (C92_ex)."
  }
 ]
}