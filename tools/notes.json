{
 "C01": {
  "note": "Pointer-level model of LocList; every history of new/add/add-list/compact calls."
 },
 "C02": {
  "note": "Totals correct whenever defined, defined whenever the numbers fit an int, independent of order."
 },
 "C03": {
  "note": "Contents, lookups, idempotence, original untouched; totals under non-negative counters."
 },
 "C04": {
  "note": "All ten sums, every history (self-add excluded, see C07)."
 },
 "C05": {
  "note": "The expected merge is refuted (C05_delta_list_merge_refuted); exact contents are proved, and correctness when the language is the first one or not repeated."
 },
 "C06": {
  "note": "No overflow below the stated bound; bound sharp; overflow is the only possible failure."
 },
 "C07": {
  "note": "LocList self-add doubles; LocDeltaList self-add with two languages never terminates, with one it doubles."
 },
 "C08": {
  "note": "Full pipeline of diff.c (prepare, prune, sort, equiv, unsort, stone, unravel, output) proved to compute an LCS diff of the line hashes."
 },
 "C09": {
  "note": "Consequence of C08."
 },
 "C10": {
  "note": "Never undefined, whatever the hashes."
 },
 "C11": {
  "note": "Results are symmetric; definedness is not (refuted)."
 },
 "C12": {
  "note": "Exact characterisation of the outcomes; both undefined behaviours exhibited (end marker, terminator)."
 },
 "C13": {
  "note": "Refuted by a collision; proved for injective hashes; collisions can only hide changes."
 },
 "C14": {
  "note": "Either side, every position next to a line boundary."
 },
 "C43": {
  "note": "External diff program is an oracle; counting of its output proved for lines below the buffer size and refuted above."
 },
 "C15": {
  "note": "Both buffers; the source text is any byte list, a piece with an embedded NUL is stored truncated (upto_nul). Negative lengths are undefined, shown by C15_negative_length."
 },
 "C16": {
  "note": "Under the hypothesis that spans lie in the file and code/comment spans end the file or have a non-blank byte in them or directly behind them; parsers only make such spans (C55). Repeated spans can be dropped (C16_repeated_spans_refuted) and a blank code/comment span followed by a blank is undefined (C16_blank_span_undefined)."
 },
 "C17": {
  "note": "Composes the callback model with the LocList model of C01."
 },
 "C25": {
  "note": "Every path with a dot or separator; for the others see C26."
 },
 "C26": {
  "note": "The paths that read out of bounds are characterised exactly."
 },
 "C41": {
  "note": "Composes the callback model, the delta list model and the line diff model; files are given by the events their parser reports. Definedness is characterised by C41_file_diff_defined."
 },
 "C42": {
  "note": "For texts compared in memory (at most 100000 bytes per kind and language); beyond, the result is whatever the external diff program prints."
 },
 "C38": {
  "note": "Any list of any history of C01; the other lists stay untouched."
 },
 "C39": {
  "note": "Summary and individual reports, starting from the parser callbacks of each file (composes C16, C01, C38). Column layout and percentage not modelled."
 },
 "C40": {
  "note": "Finite trees that do not change meanwhile; includes the path buffer. Paths of 4096 bytes or more overflow it (C40_long_path_refuted)."
 },
 "C27": {
  "note": "State machine over all API calls; disk arbitrary at each call; detector, parsers and licence detector are oracles."
 },
 "C28": {
  "note": "Stability until the parse, loss after it (C28_lost_after_parse), stale size and empty file exhibited as refutations."
 },
 "C18": {
  "note": "All 123 languages: an abstract interpreter over the compiled automata, proved sound, certifies each scanner; quadratic step bound."
 },
 "C19": {
  "note": "Same certificates; spans non-empty and inside the file, kinds, languages."
 },
 "C44": {
  "note": "Same certificates. Seven html-like languages refuted by a witness (NULL line start in a broken style end tag), otherwise safe; rebol only up to overflow of its counter (whether the overflow is reachable is not shown)."
 },
 "C20": {
  "note": "26 line-oriented languages, certified by an abstract product check proved sound (LineProofs.v); Vim refuted."
 },
 "C21": {
  "note": "Reports equal the independent account count_lines for 26 languages; failing expectations refuted."
 },
 "C22": {
  "note": "General over prefixes and continuations for 26 languages; leading tab for all entries but haml."
 },
 "C23": {
  "note": "Refuted by witnesses: unterminated comment, literal with line end. Proved for files in which nothing may run over a line end (C23_lines_counted_once), 88 languages."
 },
 "C24": {
  "note": "All action sequences on all line counting machines; C24_parsers: every parser is one; every parser run decomposes into such a sequence."
 },
 "C29": {
  "note": "Tables transcribed in full by tools/tables.py; gperf lookup taken as exact key lookup."
 },
 "C30": {
  "note": "Every libmagic answer, PCRE answer, platform; refuted by a .dat file."
 },
 "C31": {
  "note": "All tests of ohcount_detect_language in their order, against a declarative description of mode lines and libmagic answers."
 },
 "C32": {
  "note": "20 disambiguators. Exact decisions (Fortran and .m since DisambSpec2.v), except: .b is exact only without \"include\", .st only without hidden colons; .pl assumes a correct regex engine, .pp is stated in terms of the engine; C48 removes both assumptions."
 },
 "C33": {
  "note": "What C leaves undefined but is harmless on usual machines is a parameter (platform); strict platform = C standard."
 },
 "C34": {
  "note": "For every regular expression engine."
 },
 "C35": {
  "note": "For every engine whose matches lie within the text (engine_ok, proved for RegexModel in C45_engine)."
 },
 "C36": {
  "note": "Refuted for several languages: only the one that appeared last counts."
 },
 "C37": {
  "note": "Exact description of the result; the single-blank expectation is refuted."
 },
 "C45": {
  "note": "RegexModel is a model of the PCRE library, which is not part of the repository; match limit not modelled."
 },
 "C46": {
  "note": ""
 },
 "C47": {
  "note": "61 names; the rude one is refuted."
 },
 "C48": {
  "note": "Discharges the regex hypothesis of C32_pl and C32_pp with RegexModel."
 },
 "C49": {
  "note": "Abstract product of each scanner with the account, one sound checker, a vm_compute certificate for each language covered, all files (no bound). Files the account rejects (unclosed comments etc., Perl documentation) are not covered; languages not covered: rebol, haml, metapost_with_tex, and those with embedded languages (html-like ones, php, jsp, rhtml, cs_aspx, vb_aspx, clearsilver_template)."
 },
 "C50": {
  "note": "From C49 and a structural property of the account."
 },
 "C51": {
  "note": "From C49; the hypotheses leads/block_comment hold for the comments of most of the languages (not for those whose body counts as code, see C54)."
 },
 "C52": {
  "note": "From C49."
 },
 "C53": {
  "note": "From C49."
 },
 "C54": {
  "note": "Refuted by witnesses."
 },
 "C55": {
  "note": "Abstract execution of the compiled scanners with a checked table per language (TailCheck.v, TailProofs.v, ScanCerts*.v). The number of reports is a hypothesis; C56 shows it can exceed the number of lines."
 },
 "C56": {
  "note": "Refutation for a family of files, by symbolic execution of the compiled C scanner (ten cells of its table) and induction. Only the C parser is treated."
 },
 "C57": {
  "note": "Hypotheses: no NUL byte, size + 5 an int, steps of the parser at least step_bound (C18). The account is LineSpec or LexSpec, the extension table that of DetectorSpec."
 },
 "C58": {
  "note": "All files plain (extension decides; contents accounted for), paths shorter than FILENAME_MAX, number of files and of lines an int. Output as items, not characters."
 },
 "C59": {
  "note": "C59_option_table relates the gperf table to the list of the help text."
 },
 "C60": {
  "note": "Universal refutation: the defect shows for every annotated file with a line."
 },
 "C61": {
  "note": "The refutation is stated for files with the extension of a binary file; the same holds for any file without language."
 },
 "C62": {
  "note": "For any engine with engine_ok; together with C45-C47 for the matcher of RegexModel."
 },
 "C63": {
  "note": "Bounds on the steps as in C19. Exclusions are shown to be necessary for limbo and the html-like languages; for rebol the overflow needs a file of more than 2^31 brackets."
 },
 "C64": {
  "note": "Inside: all languages but limbo. In order: all but limbo, factor, vim (which report nothing, C67), modelica and the html-like ones."
 },
 "C65": {
  "note": "EntitySpec.v gives isspace."
 },
 "C66": {
  "note": "The list `complete` of EntitySpec.v."
 },
 "C67": {
  "note": "The labels are decided by the last embedded action executed, not by the pattern that matched."
 },
 "C68": {
  "note": "Room is defined in RecordSpec.v from the sizes of the buffers alone; a file of C comments whose reports overlap is computed beside it."
 },
 "C69": {
  "note": "The entity machines are those of C63 to C67."
 },
 "C70": {
  "note": "All histories of the modelled calls; the side conditions are shown to be needed (C70_list_to_itself_refuted, C70_file_of_list_refuted)."
 },
 "C71": {
  "note": "Exact account of what remains; that nothing remains is refuted (C71_deltas_lose_memory for every run, C71_memory_lost_refuted, C71_queue_left_refuted)."
 },
 "C72": {
  "note": "Lifetime proved; survival across parsing refuted (C72_parsing_frees_refuted), own contents refuted (C72_own_contents_refuted)."
 },
 "C73": {
  "note": "Simulation between states that differ only in the surviving variables; all machines, not only those of the table."
 },
 "C74": {
  "note": "Composed with C58 (accounted files) and C68 (any file). Column width refuted for two names (C74_width_refuted)."
 },
 "C75": {
  "note": "Percentages are modelled as binary32 operations rounded to nearest even; the model agreed with compiled code of the same expression on 413 pairs (a test)."
 },
 "C76": {
  "note": "Two refutations: missing percentage, forged lines."
 },
 "C77": {
  "note": "Refuted for paths with a line end (C77_newline_refuted)."
 },
 "C78": {
  "note": "Refuted for other orders of the shipped table (C78_order_refuted)."
 },
 "C79": {
  "note": "find_gestalts never works (C79_find_gestalts_raises)."
 },
 "C81": {
  "note": "openesb is listed twice (C81_twice_refuted)."
 },
 "C82": {
  "note": "FileRule.instances has no bound (C82_bounded_refuted)."
 },
 "C83": {
  "note": "Monotonicity refuted for the shipped table (C83_more_refuted)."
 },
 "C84": {
  "note": "Refutations: share of all code, reuse of an engine."
 },
 "C85": {
  "note": "Refutation: Fortran is not native code."
 },
 "C86": {
  "note": "Refuted for nested elements and empty identifiers (C86_nested_refuted)."
 },
 "C87": {
  "note": "Refuted part: C87_mixed_refuted."
 },
 "C88": {
  "note": "Refutations: C88_keep_refuted, C88_filenames_refuted."
 },
 "C89": {
  "note": "Refutation: C89_leak_refuted."
 },
 "C90": {
  "note": "Refutation: C90_net_refuted."
 },
 "C93": {
  "note": "That the loops of the commands visit the files of the list in order is part of the definition of tool_calls; the comparisons of the sorts are answered by the outside (all outcomes are covered). The write past the stack buffer of annotate is C60, not here: only the heap is modelled."
 },
 "C94": {
  "note": "Vim: for every comment text without quote and backslash, and every rest (a run on a prefix does not depend on the rest; StopProofs.v). Perl: witnesses."
 },
 "C95": {
  "note": "For the 88 languages of LexTable.v except stratego, lisp, scheme, emacslisp, racket, clojure and mathematica (patterns that go on after a line feed); the condition on the first text is `settled_text` (LexConcat.v)."
 },
 "C96": {
  "note": "lexes minus the languages of the refuted parsers; embedded languages (php, jsp, rhtml, aspx, clearsilver_template, haml, metapost_with_tex) are not covered."
 },
 "C97": {
  "note": "The condition `spaced` (LexSpaces.v) on the patterns of a language is computed; chaiscript, dylan, javascript, qml, typescript, haskell, elm and autoconf have patterns with blanks inside and are neither proved nor refuted. Blanks are not added where there were none, nor removed altogether."
 },
 "C98": {
  "note": "The table covers the ambiguous extensions except .h (C32_h) and .in (C31, C32). The tool passes no directory listing (see C57). Parsers: C19 for all languages, runs for the html-like ones and rebol."
 },
 "C99": {
  "note": "C99_final_newline (70 languages) and C99_final_newline_of_lines (26) give the reports exactly (with_final); C99_same_kinds; C99_final_newline_refuted lists the languages for which it fails; 12 other languages with patterns across a line feed are left out (no counterexample known)."
 },
 "C100": {
  "note": "C100_indentation_does_not_matter (70 languages), C100_indentation_of_lines (26), C100_moved; C100_indentation_refuted lists the languages for which it fails."
 },
 "C101": {
  "note": "C101_misread_lines holds in every context; C101_machines_agree_refuted and C101_python_refuted are concrete witnesses."
 },
 "C102": {
  "note": "C102_line_by_line gives the reports by a function of single lines; C102_order_does_not_matter, C102_one_more_line; C102_order_refuted is the case of C. C95_order_of_parts has the corresponding fact about closed parts for the languages with accounts."
 },
 "C103": {
  "note": "C103_layout_does_not_matter (-i, one file, with its row) and C103_same_output (-i and -s, any invocation whose files are plain) are about the model of main (ToolModel.v); C103_layout_refuted is the case of Perl."
 },
 "C104": {
  "note": "Refuted property: the theorems show what the parser does instead. General in the second line of the form b.../ ; the lost comment is a witness."
 }
}