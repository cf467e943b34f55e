{
 "claims": [
  {
   "property": "C01",
   "status": "proved",
   "theorems": [
    "C01_loc_list_accumulates"
   ],
   "note": "Pointer-level model of LocList; every history of new/add/add-list/compact calls."
  },
  {
   "property": "C02",
   "status": "proved",
   "theorems": [
    "C02_loc_list_totals",
    "C02_loc_list_totals_defined",
    "C02_loc_list_order_independent"
   ],
   "note": "Totals correct whenever defined, defined whenever the numbers fit an int, independent of order."
  },
  {
   "property": "C03",
   "status": "proved",
   "theorems": [
    "C03_compact",
    "C03_compact_totals"
   ],
   "note": "Contents, lookups, idempotence, original untouched; totals under non-negative counters."
  },
  {
   "property": "C04",
   "status": "proved",
   "theorems": [
    "C04_delta_list_totals"
   ],
   "note": "All ten sums, every history (self-add excluded, see C07)."
  },
  {
   "property": "C05",
   "status": "proved",
   "theorems": [
    "C05_delta_list_contents",
    "C05_delta_list_lookup_unrepeated",
    "C05_delta_list_merge_refuted"
   ],
   "note": "The expected merge is refuted (C05_delta_list_merge_refuted); exact contents are proved, and correctness when the language is the first one or not repeated."
  },
  {
   "property": "C06",
   "status": "proved",
   "theorems": [
    "C06_no_overflow",
    "C06_overflow_refuted",
    "C06_only_overflow"
   ],
   "note": "No overflow below the stated bound; bound sharp; overflow is the only possible failure."
  },
  {
   "property": "C07",
   "status": "proved",
   "theorems": [
    "C07_loc_self_add",
    "C07_delta_self_add_refuted",
    "C07_delta_self_add_single"
   ],
   "note": "LocList self-add doubles; LocDeltaList self-add with two languages never terminates, with one it doubles."
  },
  {
   "property": "C08",
   "status": "proved",
   "theorems": [
    "C08_diff_is_minimal"
   ],
   "note": "Full pipeline of diff.c (prepare, prune, sort, equiv, unsort, stone, unravel, output) proved to compute an LCS diff of the line hashes."
  },
  {
   "property": "C09",
   "status": "proved",
   "theorems": [
    "C09_diff_net"
   ],
   "note": "Consequence of C08."
  },
  {
   "property": "C10",
   "status": "proved",
   "theorems": [
    "C10_diff_identical"
   ],
   "note": "Never undefined, whatever the hashes."
  },
  {
   "property": "C11",
   "status": "proved",
   "theorems": [
    "C11_diff_symmetric",
    "C11_definedness_symmetric_refuted"
   ],
   "note": "Results are symmetric; definedness is not (refuted)."
  },
  {
   "property": "C12",
   "status": "proved",
   "theorems": [
    "C12_diff_safe",
    "C12_sentinel_undefined",
    "C12_safety_refuted",
    "C12_terminator_out_of_bounds"
   ],
   "note": "Exact characterisation of the outcomes; both undefined behaviours exhibited (end marker, terminator)."
  },
  {
   "property": "C13",
   "status": "proved",
   "theorems": [
    "C13_distinct_lines_refuted",
    "C13_injective_hash",
    "C13_injective_empty_diff",
    "C13_never_overreports"
   ],
   "note": "Refuted by a collision; proved for injective hashes; collisions can only hide changes."
  },
  {
   "property": "C14",
   "status": "proved",
   "theorems": [
    "C14_empty_line_from",
    "C14_empty_line_to"
   ],
   "note": "Either side, every position next to a line boundary."
  },
  {
   "property": "C15",
   "status": "proved",
   "theorems": [
    "C15_buffers_safe",
    "C15_nothing_dropped",
    "C15_negative_length"
   ],
   "note": "Both buffers; the source text is any byte list, a piece with an embedded NUL is stored truncated (upto_nul). Negative lengths are undefined, shown by C15_negative_length."
  },
  {
   "property": "C16",
   "status": "proved",
   "theorems": [
    "C16_callbacks_record",
    "C16_callbacks_complete",
    "C16_ordered_spans_fit",
    "C16_repeated_spans_refuted",
    "C16_blank_span_undefined"
   ],
   "note": "Under the hypothesis that spans lie in the file and code/comment spans end the file or have a non-blank byte in them or directly behind them; parsers only make such spans (C55). Repeated spans can be dropped (C16_repeated_spans_refuted) and a blank code/comment span followed by a blank is undefined (C16_blank_span_undefined)."
  },
  {
   "property": "C17",
   "status": "proved",
   "theorems": [
    "C17_loc_list_of_events"
   ],
   "note": "Composes the callback model with the LocList model of C01."
  },
  {
   "property": "C18",
   "status": "proved",
   "theorems": [
    "C18_scanners_terminate",
    "C18_result_unique"
   ],
   "note": "All 123 languages: an abstract interpreter over the compiled automata, proved sound, certifies each scanner; quadratic step bound."
  },
  {
   "property": "C19",
   "status": "proved",
   "theorems": [
    "C19_reports_inside_file"
   ],
   "note": "Same certificates; spans non-empty and inside the file, kinds, languages."
  },
  {
   "property": "C20",
   "status": "proved",
   "theorems": [
    "C20_one_report_per_line",
    "C20_reports_tile",
    "C20_vim_refuted"
   ],
   "note": "26 line-oriented languages, certified by an abstract product check proved sound (LineProofs.v); Vim refuted."
  },
  {
   "property": "C21",
   "status": "proved",
   "theorems": [
    "C21_lines_classified",
    "C21_comment_syntax_refuted"
   ],
   "note": "Reports equal the independent account count_lines for 26 languages; failing expectations refuted."
  },
  {
   "property": "C22",
   "status": "proved",
   "theorems": [
    "C22_tab_stops_counting",
    "C22_leading_tab_hides_file"
   ],
   "note": "General over prefixes and continuations for 26 languages; leading tab for all entries but haml."
  },
  {
   "property": "C23",
   "status": "proved",
   "theorems": [
    "C23_lines_counted_once",
    "C23_unterminated_comment_refuted",
    "C23_string_swallows_lines_refuted"
   ],
   "note": "Refuted by witnesses: unterminated comment, literal with line end. Proved for files in which nothing may run over a line end (C23_lines_counted_once), 88 languages."
  },
  {
   "property": "C24",
   "status": "proved",
   "theorems": [
    "C24_delivery",
    "C24_parse_delivers",
    "C24_abandon_restores",
    "C24_parsers"
   ],
   "note": "All action sequences on all line counting machines; C24_parsers: every parser is one; every parser run decomposes into such a sequence."
  },
  {
   "property": "C25",
   "status": "proved",
   "theorems": [
    "C25_path_split"
   ],
   "note": "Every path with a dot or separator; for the others see C26."
  },
  {
   "property": "C26",
   "status": "proved",
   "theorems": [
    "C26_bare_name_refuted",
    "C26_other_paths_safe"
   ],
   "note": "The paths that read out of bounds are characterised exactly."
  },
  {
   "property": "C27",
   "status": "proved",
   "theorems": [
    "C27_stable",
    "C27_language_stable",
    "C27_language_set",
    "C27_computed_once",
    "C27_consistent",
    "C27_parse_result"
   ],
   "note": "State machine over all API calls; disk arbitrary at each call; detector, parsers and licence detector are oracles."
  },
  {
   "property": "C28",
   "status": "proved",
   "theorems": [
    "C28_set_contents",
    "C28_size",
    "C28_lost_after_parse",
    "C28_size_before_contents_refuted",
    "C28_empty_file_refuted"
   ],
   "note": "Stability until the parse, loss after it (C28_lost_after_parse), stale size and empty file exhibited as refutations."
  },
  {
   "property": "C29",
   "status": "proved",
   "theorems": [
    "C29_keys_unique",
    "C29_extensions_closed",
    "C29_filenames_closed",
    "C29_languages_have_parsers",
    "C29_reported_languages_known",
    "C29_own_name_refuted",
    "C29_own_name",
    "C29_aliases"
   ],
   "note": "Tables transcribed in full by tools/tables.py; gperf lookup taken as exact key lookup."
  },
  {
   "property": "C30",
   "status": "proved",
   "theorems": [
    "C30_known_or_marker",
    "C30_known_refuted",
    "C30_known_or_none",
    "C30_known_without_extension"
   ],
   "note": "Every libmagic answer, PCRE answer, platform; refuted by a .dat file."
  },
  {
   "property": "C31",
   "status": "proved",
   "theorems": [
    "C31_extension_decides",
    "C31_binary_extension",
    "C31_extension_function",
    "C31_mode_line_decides",
    "C31_filename_decides",
    "C31_magic_script",
    "C31_magic_plain",
    "C31_is_binary_filename"
   ],
   "note": "All tests of ohcount_detect_language in their order, against a declarative description of mode lines and libmagic answers."
  },
  {
   "property": "C32",
   "status": "proved",
   "theorems": [
    "C32_asx",
    "C32_dat",
    "C32_def",
    "C32_mod",
    "C32_inc",
    "C32_pro",
    "C32_r",
    "C32_rs",
    "C32_cs",
    "C32_pl",
    "C32_pp",
    "C32_fs",
    "C32_fs_counts_exist",
    "C32_basic",
    "C32_b",
    "C32_b_complete",
    "C32_b_include",
    "C32_aspx",
    "C32_h",
    "C32_st",
    "C32_fortran",
    "C32_fortran_blank_refuted",
    "C32_m_values",
    "C32_m_line_order",
    "C32_m_directory",
    "C32_m_headers_refuted",
    "C32_in",
    "C32_fortran_exact",
    "C32_m_exact",
    "C32_m_points"
   ],
   "note": "20 disambiguators. Exact decisions (Fortran and .m since DisambSpec2.v), except: .b is exact only without \"include\", .st only without hidden colons; .pl assumes a correct regex engine, .pp is stated in terms of the engine; C48 removes both assumptions."
  },
  {
   "property": "C33",
   "status": "proved",
   "theorems": [
    "C33_terminates",
    "C33_safe",
    "C33_safe_short_lines",
    "C33_safe_tolerant",
    "C33_safe_unknown",
    "C33_long_line_refuted",
    "C33_header_refuted",
    "C33_header_before_refuted",
    "C33_aspx_refuted",
    "C33_in_refuted",
    "C33_mode_in_refuted",
    "C33_open_mode_line_refuted",
    "C33_magic_refuted"
   ],
   "note": "What C leaves undefined but is harmless on usual machines is a parameter (platform); strict platform = C standard."
  },
  {
   "property": "C34",
   "status": "proved",
   "theorems": [
    "C34_report",
    "C34_no_languages"
   ],
   "note": "For every regular expression engine."
  },
  {
   "property": "C35",
   "status": "proved",
   "theorems": [
    "C35_reported",
    "C35_exclusive",
    "C35_something",
    "C35_every_mention_refuted"
   ],
   "note": "For every engine whose matches lie within the text (engine_ok, proved for RegexModel in C45_engine)."
  },
  {
   "property": "C36",
   "status": "proved",
   "theorems": [
    "C36_last_language_only",
    "C36_one_language",
    "C36_all_languages_refuted"
   ],
   "note": "Refuted for several languages: only the one that appeared last counts."
  },
  {
   "property": "C37",
   "status": "proved",
   "theorems": [
    "C37_one_line",
    "C37_one_line_determined",
    "C37_no_line_ends",
    "C37_single_blank_refuted"
   ],
   "note": "Exact description of the result; the single-blank expectation is refuted."
  },
  {
   "property": "C38",
   "status": "proved",
   "theorems": [
    "C38_sort_by_language",
    "C38_sort_by_code"
   ],
   "note": "Any list of any history of C01; the other lists stay untouched."
  },
  {
   "property": "C39",
   "status": "proved",
   "theorems": [
    "C39_summary_report",
    "C39_individual_report",
    "C39_summary_is_sum"
   ],
   "note": "Summary and individual reports, starting from the parser callbacks of each file (composes C16, C01, C38). Column layout and percentage not modelled."
  },
  {
   "property": "C40",
   "status": "proved",
   "theorems": [
    "C40_directory_traversal",
    "C40_long_path_refuted"
   ],
   "note": "Finite trees that do not change meanwhile; includes the path buffer. Paths of 4096 bytes or more overflow it (C40_long_path_refuted)."
  },
  {
   "property": "C41",
   "status": "proved",
   "theorems": [
    "C41_file_diff",
    "C41_file_diff_defined"
   ],
   "note": "Composes the callback model, the delta list model and the line diff model; files are given by the events their parser reports. Definedness is characterised by C41_file_diff_defined."
  },
  {
   "property": "C42",
   "status": "proved",
   "theorems": [
    "C42_file_diff_antisymmetric"
   ],
   "note": "For texts compared in memory (at most 100000 bytes per kind and language); beyond, the result is whatever the external diff program prints."
  },
  {
   "property": "C43",
   "status": "proved",
   "theorems": [
    "C43_disk_counts_lines",
    "C43_disk_long_line_refuted"
   ],
   "note": "External diff program is an oracle; counting of its output proved for lines below the buffer size and refuted above."
  },
  {
   "property": "C44",
   "status": "proved",
   "theorems": [
    "C44_scanners_safe",
    "C44_html_like_safe_but_null",
    "C44_rebol_safe_but_overflow",
    "C44_style_end_tag_refuted"
   ],
   "note": "Same certificates. Seven html-like languages refuted by a witness (NULL line start in a broken style end tag), otherwise safe; rebol only up to overflow of its counter (whether the overflow is reachable is not shown)."
  },
  {
   "property": "C45",
   "status": "proved",
   "theorems": [
    "C45_found",
    "C45_leftmost",
    "C45_preferred",
    "C45_syntax",
    "C45_supported",
    "C45_engine"
   ],
   "note": "RegexModel is a model of the PCRE library, which is not part of the repository; match limit not modelled."
  },
  {
   "property": "C46",
   "status": "proved",
   "theorems": [
    "C46_case_of_letters",
    "C46_same_report"
   ],
   "note": ""
  },
  {
   "property": "C47",
   "status": "proved",
   "theorems": [
    "C47_names",
    "C47_wtfpl_refuted"
   ],
   "note": "61 names; the rude one is refuted."
  },
  {
   "property": "C48",
   "status": "proved",
   "theorems": [
    "C48_pp",
    "C48_pl"
   ],
   "note": "Discharges the regex hypothesis of C32_pl and C32_pp with RegexModel."
  },
  {
   "property": "C49",
   "status": "proved",
   "theorems": [
    "C49_lexical_structure_decides",
    "C49_same_structure_same_counts"
   ],
   "note": "Abstract product of each scanner with the account, one sound checker, a vm_compute certificate for each language covered, all files (no bound). Files the account rejects (unclosed comments etc., Perl documentation) are not covered; languages not covered: rebol, haml, metapost_with_tex, and those with embedded languages (html-like ones, php, jsp, rhtml, cs_aspx, vb_aspx, clearsilver_template)."
  },
  {
   "property": "C50",
   "status": "proved",
   "theorems": [
    "C50_one_report_per_line",
    "C50_whole_lines"
   ],
   "note": "From C49 and a structural property of the account."
  },
  {
   "property": "C51",
   "status": "proved",
   "theorems": [
    "C51_block_comment"
   ],
   "note": "From C49; the hypotheses leads/block_comment hold for the comments of most of the languages (not for those whose body counts as code, see C54)."
  },
  {
   "property": "C52",
   "status": "proved",
   "theorems": [
    "C52_line_comment"
   ],
   "note": "From C49."
  },
  {
   "property": "C53",
   "status": "proved",
   "theorems": [
    "C53_string_literal"
   ],
   "note": "From C49."
  },
  {
   "property": "C54",
   "status": "proved",
   "theorems": [
    "C54_comment_body_refuted",
    "C54_comment_closing_refuted",
    "C54_strings_and_names_refuted"
   ],
   "note": "Refuted by witnesses."
  },
  {
   "property": "C55",
   "status": "proved",
   "theorems": [
    "C55_reports_end_well",
    "C55_recording_safe"
   ],
   "note": "Abstract execution of the compiled scanners with a checked table per language (TailCheck.v, TailProofs.v, ScanCerts*.v). The number of reports is a hypothesis; C56 shows it can exceed the number of lines."
  },
  {
   "property": "C56",
   "status": "proved",
   "theorems": [
    "C56_reports_per_line_refuted",
    "C56_blank_counter_refuted"
   ],
   "note": "Refutation for a family of files, by symbolic execution of the compiled C scanner (ten cells of its table) and induction. Only the C parser is treated."
  },
  {
   "property": "C57",
   "status": "proved",
   "theorems": [
    "C57_one_file"
   ],
   "note": "Hypotheses: no NUL byte, size + 5 an int, steps of the parser at least step_bound (C18). The account is LineSpec or LexSpec, the extension table that of DetectorSpec."
  },
  {
   "property": "C58",
   "status": "proved",
   "theorems": [
    "C58_summary_of_invocation",
    "C58_individual_of_invocation"
   ],
   "note": "All files plain (extension decides; contents accounted for), paths shorter than FILENAME_MAX, number of files and of lines an int. Output as items, not characters."
  },
  {
   "property": "C59",
   "status": "proved",
   "theorems": [
    "C59_option_table",
    "C59_one_command",
    "C59_help",
    "C59_unknown_argument",
    "C59_unknown_alone_refuted"
   ],
   "note": "C59_option_table relates the gperf table to the list of the help text."
  },
  {
   "property": "C60",
   "status": "proved",
   "theorems": [
    "C60_annotate_refuted"
   ],
   "note": "Universal refutation: the defect shows for every annotated file with a line."
  },
  {
   "property": "C61",
   "status": "proved",
   "theorems": [
    "C61_detect",
    "C61_detect_refuted"
   ],
   "note": "The refutation is stated for files with the extension of a binary file; the same holds for any file without language."
  },
  {
   "property": "C62",
   "status": "proved",
   "theorems": [
    "C62_licenses"
   ],
   "note": "For any engine with engine_ok; together with C45-C47 for the matcher of RegexModel."
  },
  {
   "property": "C63",
   "status": "proved",
   "theorems": [
    "C63_entities_safe",
    "C63_entities_safe_but",
    "C63_limbo_refuted",
    "C63_html_like_refuted"
   ],
   "note": "Bounds on the steps as in C19. Exclusions are shown to be necessary for limbo and the html-like languages; for rebol the overflow needs a file of more than 2^31 brackets."
  },
  {
   "property": "C64",
   "status": "proved",
   "theorems": [
    "C64_entities_inside_file",
    "C64_entities_in_order",
    "C64_modelica_refuted"
   ],
   "note": "Inside: all languages but limbo. In order: all but limbo, factor, vim (which report nothing, C67), modelica and the html-like ones."
  },
  {
   "property": "C65",
   "status": "proved",
   "theorems": [
    "C65_white_space",
    "C65_brainfuck_refuted"
   ],
   "note": "EntitySpec.v gives isspace."
  },
  {
   "property": "C66",
   "status": "proved",
   "theorems": [
    "C66_entities_are_the_file"
   ],
   "note": "The list `complete` of EntitySpec.v."
  },
  {
   "property": "C67",
   "status": "proved",
   "theorems": [
    "C67_nothing_found",
    "C67_labels_refuted"
   ],
   "note": "The labels are decided by the last embedded action executed, not by the pattern that matched."
  },
  {
   "property": "C68",
   "status": "proved",
   "theorems": [
    "C68_recorded",
    "C68_summary_of_any",
    "C68_individual_of_any",
    "C68_licenses_of_any"
   ],
   "note": "Room is defined in RecordSpec.v from the sizes of the buffers alone; a file of C comments whose reports overlap is computed beside it."
  },
  {
   "property": "C69",
   "status": "proved",
   "theorems": [
    "C69_entities_of_any"
   ],
   "note": "The entity machines are those of C63 to C67."
  },
  {
   "property": "C70",
   "status": "proved",
   "theorems": [
    "C70_no_fault",
    "C70_nothing",
    "C70_list_to_itself_refuted",
    "C70_file_of_list_refuted"
   ],
   "note": "All histories of the modelled calls; the side conditions are shown to be needed (C70_list_to_itself_refuted, C70_file_of_list_refuted)."
  },
  {
   "property": "C71",
   "status": "proved",
   "theorems": [
    "C71_what_is_left",
    "C71_nothing_lost",
    "C71_deltas_lose_memory",
    "C71_memory_lost_refuted",
    "C71_queue_left_refuted"
   ],
   "note": "Exact account of what remains; that nothing remains is refuted (C71_deltas_lose_memory for every run, C71_memory_lost_refuted, C71_queue_left_refuted)."
  },
  {
   "property": "C72",
   "status": "proved",
   "theorems": [
    "C72_contents_stay",
    "C72_parsing_frees_refuted",
    "C72_own_contents_refuted"
   ],
   "note": "Lifetime proved; survival across parsing refuted (C72_parsing_frees_refuted), own contents refuted (C72_own_contents_refuted)."
  },
  {
   "property": "C73",
   "status": "proved",
   "theorems": [
    "C73_as_if_first",
    "C73_all_counted"
   ],
   "note": "Simulation between states that differ only in the surviving variables; all machines, not only those of the table."
  },
  {
   "property": "C74",
   "status": "proved",
   "theorems": [
    "C74_summary_readable",
    "C74_lines_unique",
    "C74_names",
    "C74_summary_printed",
    "C74_any_summary_printed",
    "C74_width_refuted"
   ],
   "note": "Composed with C58 (accounted files) and C68 (any file). Column width refuted for two names (C74_width_refuted)."
  },
  {
   "property": "C75",
   "status": "proved",
   "theorems": [
    "C75_percentage",
    "C75_ends",
    "C75_only_ends_refuted"
   ],
   "note": "Percentages are modelled as binary32 operations rounded to nearest even; the model agreed with compiled code of the same expression on 413 pairs (a test)."
  },
  {
   "property": "C76",
   "status": "proved",
   "theorems": [
    "C76_individual_readable",
    "C76_individual_printed",
    "C76_any_individual_printed",
    "C76_percentage_missing_refuted",
    "C76_forged_refuted"
   ],
   "note": "Two refutations: missing percentage, forged lines."
  },
  {
   "property": "C77",
   "status": "proved",
   "theorems": [
    "C77_unambiguous",
    "C77_lines",
    "C77_detect_printed",
    "C77_newline_refuted"
   ],
   "note": "Refuted for paths with a line end (C77_newline_refuted)."
  },
  {
   "property": "C78",
   "status": "proved",
   "theorems": [
    "C78_exact",
    "C78_shipped",
    "C78_order_refuted"
   ],
   "note": "Refuted for other orders of the shipped table (C78_order_refuted)."
  },
  {
   "property": "C79",
   "status": "proved",
   "theorems": [
    "C79_ends",
    "C79_passes",
    "C79_find_gestalts_raises"
   ],
   "note": "find_gestalts never works (C79_find_gestalts_raises)."
  },
  {
   "property": "C80",
   "status": "proved",
   "theorems": [
    "C80_least",
    "C80_order"
   ],
   "note": ""
  },
  {
   "property": "C81",
   "status": "proved",
   "theorems": [
    "C81_listing",
    "C81_once",
    "C81_twice_refuted"
   ],
   "note": "openesb is listed twice (C81_twice_refuted)."
  },
  {
   "property": "C82",
   "status": "proved",
   "theorems": [
    "C82_history",
    "C82_instances",
    "C82_bounded_refuted"
   ],
   "note": "FileRule.instances has no bound (C82_bounded_refuted)."
  },
  {
   "property": "C83",
   "status": "proved",
   "theorems": [
    "C83_order",
    "C83_more",
    "C83_more_refuted"
   ],
   "note": "Monotonicity refuted for the shipped table (C83_more_refuted)."
  },
  {
   "property": "C84",
   "status": "proved",
   "theorems": [
    "C84_language_platforms",
    "C84_whole_refuted",
    "C84_again_refuted"
   ],
   "note": "Refutations: share of all code, reuse of an engine."
  },
  {
   "property": "C85",
   "status": "proved",
   "theorems": [
    "C85_defined",
    "C85_native_code",
    "C85_fortran_refuted",
    "C85_vb_never"
   ],
   "note": "Refutation: Fortran is not native code."
  },
  {
   "property": "C86",
   "status": "proved",
   "theorems": [
    "C86_reports",
    "C86_clean",
    "C86_raises",
    "C86_nested_refuted"
   ],
   "note": "Refuted for nested elements and empty identifiers (C86_nested_refuted)."
  },
  {
   "property": "C87",
   "status": "proved",
   "theorems": [
    "C87_rules",
    "C87_shipped",
    "C87_csproj",
    "C87_mixed_refuted"
   ],
   "note": "Refuted part: C87_mixed_refuted."
  },
  {
   "property": "C88",
   "status": "proved",
   "theorems": [
    "C88_safe",
    "C88_hold",
    "C88_keep_refuted",
    "C88_filenames_refuted"
   ],
   "note": "Refutations: C88_keep_refuted, C88_filenames_refuted."
  },
  {
   "property": "C89",
   "status": "proved",
   "theorems": [
    "C89_account",
    "C89_leak_refuted"
   ],
   "note": "Refutation: C89_leak_refuted."
  },
  {
   "property": "C90",
   "status": "proved",
   "theorems": [
    "C90_loc_equal",
    "C90_delta_equal",
    "C90_changed",
    "C90_net_refuted"
   ],
   "note": "Refutation: C90_net_refuted."
  },
  {
   "property": "C91",
   "status": "proved",
   "theorems": [
    "C91_one_output",
    "C91_files",
    "C91_sorted",
    "C91_read_back"
   ],
   "note": ""
  },
  {
   "property": "C92",
   "status": "proved",
   "theorems": [
    "C92_confused",
    "C92_same_sum",
    "C92_one_byte",
    "C92_exchange",
    "C92_text"
   ],
   "note": ""
  },
  {
   "property": "C93",
   "status": "proved",
   "theorems": [
    "C93_tool_heap",
    "C93_license_texts_refuted",
    "C93_queue_left_refuted"
   ],
   "note": "That the loops of the commands visit the files of the list in order is part of the definition of tool_calls; the comparisons of the sorts are answered by the outside (all outcomes are covered). The write past the stack buffer of annotate is C60, not here: only the heap is modelled."
  },
  {
   "property": "C94",
   "status": "proved",
   "theorems": [
    "C94_vim_comment_after_code_refuted",
    "C94_perl_equals_sign_refuted"
   ],
   "note": "Vim: for every comment text without quote and backslash, and every rest (a run on a prefix does not depend on the rest; StopProofs.v). Perl: witnesses."
  },
  {
   "property": "C95",
   "status": "proved",
   "theorems": [
    "C95_counts_add_up",
    "C95_order_of_parts",
    "C95_empty_lines",
    "C95_lines_add_up",
    "C95_apostrophe_refuted"
   ],
   "note": "For the 88 languages of LexTable.v except stratego, lisp, scheme, emacslisp, racket, clojure and mathematica (patterns that go on after a line feed); the condition on the first text is `settled_text` (LexConcat.v)."
  },
  {
   "property": "C96",
   "status": "proved",
   "theorems": [
    "C96_line_ends_do_not_matter",
    "C96_line_ends_of_lines",
    "C96_line_ends_refuted"
   ],
   "note": "lexes minus the languages of the refuted parsers; embedded languages (php, jsp, rhtml, aspx, clearsilver_template, haml, metapost_with_tex) are not covered."
  },
  {
   "property": "C97",
   "status": "proved",
   "theorems": [
    "C97_blanks_do_not_matter",
    "C97_blanks_of_lines",
    "C97_blanks_refuted"
   ],
   "note": "The condition `spaced` (LexSpaces.v) on the patterns of a language is computed; chaiscript, dylan, javascript, qml, typescript, haskell, elm and autoconf have patterns with blanks inside and are neither proved nor refuted. Blanks are not added where there were none, nor removed altogether."
  },
  {
   "property": "C98",
   "status": "proved",
   "theorems": [
    "C98_no_lines",
    "C98_name_decides",
    "C98_no_language",
    "C98_ambiguous",
    "C98_tool"
   ],
   "note": "The table covers the ambiguous extensions except .h (C32_h) and .in (C31, C32). The tool passes no directory listing (see C57). Parsers: C19 for all languages, runs for the html-like ones and rebol."
  },
  {
   "property": "C99",
   "status": "proved",
   "theorems": [
    "C99_final_newline",
    "C99_final_newline_of_lines",
    "C99_same_kinds",
    "C99_final_newline_refuted"
   ],
   "note": "C99_final_newline (70 languages) and C99_final_newline_of_lines (26) give the reports exactly (with_final); C99_same_kinds; C99_final_newline_refuted lists the languages for which it fails; 12 other languages with patterns across a line feed are left out (no counterexample known)."
  },
  {
   "property": "C100",
   "status": "proved",
   "theorems": [
    "C100_indentation_does_not_matter",
    "C100_indentation_of_lines",
    "C100_moved",
    "C100_indentation_refuted"
   ],
   "note": "C100_indentation_does_not_matter (70 languages), C100_indentation_of_lines (26), C100_moved; C100_indentation_refuted lists the languages for which it fails."
  },
  {
   "property": "C101",
   "status": "proved",
   "theorems": [
    "C101_misread_lines",
    "C101_machines_agree_refuted",
    "C101_python_refuted"
   ],
   "note": "C101_misread_lines holds in every context; C101_machines_agree_refuted and C101_python_refuted are concrete witnesses."
  },
  {
   "property": "C102",
   "status": "proved",
   "theorems": [
    "C102_line_by_line",
    "C102_order_does_not_matter",
    "C102_one_more_line",
    "C102_order_refuted"
   ],
   "note": "C102_line_by_line gives the reports by a function of single lines; C102_order_does_not_matter, C102_one_more_line; C102_order_refuted is the case of C. C95_order_of_parts has the corresponding fact about closed parts for the languages with accounts."
  },
  {
   "property": "C103",
   "status": "proved",
   "theorems": [
    "C103_layout_does_not_matter",
    "C103_same_output",
    "C103_layout_refuted"
   ],
   "note": "C103_layout_does_not_matter (-i, one file, with its row) and C103_same_output (-i and -s, any invocation whose files are plain) are about the model of main (ToolModel.v); C103_layout_refuted is the case of Perl."
  },
  {
   "property": "C104",
   "status": "proved",
   "theorems": [
    "C104_slash_at_line_end_refuted",
    "C104_hidden_line_refuted"
   ],
   "note": "Refuted property: the theorems show what the parser does instead. General in the second line of the form b.../ ; the lost comment is a witness."
  }
 ]
}