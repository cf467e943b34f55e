{"id": "C01", "title": "LocList is a faithful per-language accumulator", "statement": "After any history of adding Locs (and whole LocLists) to a fresh list, asking the list for a language yields nothing if that language was never added, and otherwise one entry whose code, comment, blank and file counts are the exact sums over all additions of that language; each language appears once, in order of first addition.", "quantifier": "every finite history of additions, every language name, every counter value (in the absence of int overflow)", "why_tests_cant": "A unit test fixes one or two histories; merging errors show only for particular orders/repetitions of languages.", "anchors": ["src/loc.c:ohcount_loc_list_add_loc", "src/loc.c:ohcount_loc_list_add_loc_list", "src/loc.c:ohcount_loc_list_get_loc"]}
{"id": "C02", "title": "LocList totals are exact and order independent", "statement": "The code/comments/blanks/total/filecount totals reported for a list equal the sums over everything ever added to it, and do not depend on the order in which the additions were made.", "quantifier": "every history of additions and every permutation of it", "why_tests_cant": "Permutations of histories are unboundedly many.", "anchors": ["src/loc.c:ohcount_loc_list_code", "src/loc.c:ohcount_loc_list_comments", "src/loc.c:ohcount_loc_list_blanks", "src/loc.c:ohcount_loc_list_total", "src/loc.c:ohcount_loc_list_filecount"]}
{"id": "C03", "title": "Compaction removes exactly the empty entries", "statement": "A compacted LocList contains, in the same order, exactly the entries with a non-zero number of lines; lookups of those languages and the code/comment/blank totals are unchanged; compacting twice is the same as once.", "quantifier": "every list reachable by additions", "why_tests_cant": "Interplay of zero entries with merging cannot be covered by samples.", "anchors": ["src/loc.c:ohcount_loc_list_new_compact"]}
{"id": "C04", "title": "LocDeltaList totals are exact", "statement": "For every history of adding LocDeltas, the added/removed/net/total sums reported by the list equal the sums over all additions.", "quantifier": "every history of additions", "why_tests_cant": "Needs induction over histories, in particular because the per-language view of the same list is wrong (C05).", "anchors": ["src/loc.c:ohcount_loc_delta_list_add_loc_delta", "src/loc.c:ohcount_loc_delta_list_code_added", "src/loc.c:ohcount_loc_delta_list_net_code"]}
{"id": "C05", "title": "LocDeltaList merges per language", "statement": "Expected: after any history, a LocDeltaList holds one entry per language with the summed delta, as LocList does. The code compares every new delta with the first node only, so the claim is refuted; what is proved instead is the exact behaviour (only the first language is merged, all other additions are appended verbatim, lookup returns the first of them).", "quantifier": "every history of additions", "why_tests_cant": "A test with one language, or with each language added once, passes.", "anchors": ["src/loc.c:ohcount_loc_delta_list_add_loc_delta", "src/loc.c:ohcount_loc_delta_list_get_loc_delta"]}
{"id": "C06", "title": "Line counters do not overflow below INT_MAX", "statement": "If all counts are non-negative and their sum is at most 2^31-1, no addition on a LocList overflows a C int; beyond it the code runs into signed overflow.", "quantifier": "every history of additions; witness history for the negative part", "why_tests_cant": "Requires reasoning on the sum of an arbitrary history.", "anchors": ["src/loc.c:ohcount_loc_add_loc", "src/loc.h"]}
{"id": "C07", "title": "Adding a list to itself", "statement": "Adding a LocList to itself terminates and doubles every entry; adding a LocDeltaList to itself doubles it when it has at most one language but never terminates once a second language is present.", "quantifier": "every reachable list; every number of loop iterations", "why_tests_cant": "Non-termination cannot be observed by a finite test.", "anchors": ["src/loc.c:ohcount_loc_list_add_loc_list", "src/loc.c:ohcount_loc_delta_list_add_loc_delta_list"]}
{"id": "C08", "title": "The line diff is minimal", "statement": "Whenever the diff of two texts is well defined (see C12), removed = #from - L and added = #to - L, where L is the length of a longest common subsequence of the two sequences of non-empty lines (lines compared through the code's line hash).", "quantifier": "every pair of buffers", "why_tests_cant": "Optimality quantifies over all alternative edit scripts of all inputs.", "anchors": ["src/diff.c:ohcount_calc_diff", "src/diff.c:stone", "src/diff.c:equiv", "src/diff.c:prune", "src/diff.c:output"]}
{"id": "C09", "title": "Net diff equals the difference of line counts", "statement": "added - removed = (#non-empty lines of to) - (#non-empty lines of from), and 0 <= added <= #to, 0 <= removed <= #from.", "quantifier": "every pair of buffers for which the diff is well defined", "why_tests_cant": "Property of all inputs.", "anchors": ["src/diff.c:ohcount_calc_diff", "src/diff.c:output"]}
{"id": "C10", "title": "A text does not differ from itself", "statement": "Diffing two buffers with the same non-empty lines returns 0 added and 0 removed, and never runs into undefined behaviour.", "quantifier": "every buffer, including those with colliding or zero hashes", "why_tests_cant": "Requires all inputs; identical inputs take the prune path for any length.", "anchors": ["src/diff.c:ohcount_calc_diff", "src/diff.c:prune"]}
{"id": "C11", "title": "Swapping the inputs swaps added and removed", "statement": "calc_diff(from,to) reports (a,r) iff calc_diff(to,from) reports (r,a), whenever both are well defined. Definedness itself is not symmetric (refuted).", "quantifier": "every pair of buffers", "why_tests_cant": "The algorithm treats both sides very differently; symmetry is only visible through optimality.", "anchors": ["src/diff.c:ohcount_calc_diff"]}
{"id": "C12", "title": "Memory safety of the diff", "statement": "All array accesses of the in-memory diff stay within the allocated arrays and read only initialised cells, except in two situations. (1) If the largest line hash of the changed middle part of `to` is 0, the code reads an uninitialised serial number. (2) The copy of each text is terminated one byte behind its local array, which is only harmless if the stack happens to have a usable byte there; all other statements about the diff are made under this assumption.", "quantifier": "every pair of buffers", "why_tests_cant": "Depends on the values of the hash; random tests hit the sentinel failure with negligible probability.", "anchors": ["src/diff.c:equiv", "src/diff.c:sort", "src/diff.c:unsort", "src/diff.c:stone", "src/diff.c:unravel", "src/diff.c:output"]}
{"id": "C13", "title": "Distinct lines are distinguished by the diff", "statement": "Expected: two texts whose non-empty lines differ never produce an empty diff. Refuted, because the 16-bit style hash collides and colliding lines are not compared; proved when the hash is injective on the lines involved, in which case the result is the LCS diff on the lines themselves.", "quantifier": "every pair of buffers", "why_tests_cant": "Needs a collision, which samples do not contain.", "anchors": ["src/diff.c:readhash", "src/diff.c:equiv"]}
{"id": "C14", "title": "Empty lines are invisible to the diff", "statement": "Inserting or deleting empty lines (consecutive '\\n') in either input does not change the result of the diff.", "quantifier": "every pair of buffers and every insertion position", "why_tests_cant": "All positions in all texts.", "anchors": ["src/diff.c:prepare"]}
{"id": "C15", "title": "Parsed-language buffers never overflow", "statement": "For any sequence of add_code/add_comment calls with pieces of memory of non-negative length, every byte written lies inside the buffers allocated for the ParsedLanguage; as long as the accumulated text fits in the file size, no line is dropped, the stored text is the concatenation of the added lines and the counter equals the number of lines. A negative length is undefined behaviour.", "quantifier": "every sequence of calls, every buffer size", "why_tests_cant": "Off-by-one errors at the end of a buffer only show for exact lengths.", "anchors": ["src/parsed_language.c:ohcount_parsed_language_new", "src/parsed_language.c:ohcount_parsed_language_add_code", "src/parsed_language.c:ohcount_parsed_language_add_comment"]}
{"id": "C16", "title": "The parse callback records each reported line", "statement": "For every callback sequence whose spans lie in the file, each lcode/lcomment span is stored stripped of leading blanks under its language and counted once, provided that it ends the file or there is a non-blank character in it or directly behind it, and as long as the text fits in the file size (always so for spans reported in order and without overlap); a blank span only increments the blank counter. A code/comment span consisting only of blanks and followed by a blank makes the code copy with a negative length (undefined behaviour).", "quantifier": "every file and every sequence of callbacks", "why_tests_cant": "Quantifies over all spans and files.", "anchors": ["src/sourcefile.c:parser_callback"]}
{"id": "C17", "title": "LOC list of a file agrees with the parse events", "statement": "The LocList reported for a file holds one entry per language reported by the parser, in order of first report, with the numbers of code, comment and blank lines reported, and file count 1.", "quantifier": "every sequence of parse events", "why_tests_cant": "Arbitrary interleavings of languages.", "anchors": ["src/sourcefile.c:ohcount_sourcefile_get_loc_list", "src/sourcefile.c:parser_callback"]}
{"id": "C18", "title": "Line scanners terminate", "statement": "For each of the 123 languages with a line parser, parsing terminates on every file after at most 64 (n+6)^2 scanner steps for a file of n bytes; the result does not depend on the number of steps allowed.", "quantifier": "every language, every file of bytes whose size is an int", "why_tests_cant": "Backtracking scanners can loop on inputs never tried.", "anchors": ["src/parsers/*.rl", "src/parser_macros.h"]}
{"id": "C19", "title": "Reported spans lie inside the file", "statement": "Every (language, kind, start, end) event reported by the parser of a language satisfies 0 <= start < end <= length of the file; its kind is lcode, lcomment or lblank; its language is the language of the file or one that may be embedded in it.", "quantifier": "every language, every file of bytes whose size is an int", "why_tests_cant": "All inputs, all backtracking situations.", "anchors": ["src/parsers/*.rl", "src/parser_macros.h"]}
{"id": "C20", "title": "Every line is reported exactly once", "statement": "For 26 languages without tokens that span lines (ada, automake, awk, bat, ..., visualbasic): for every file without vertical tab the parser ends, its reports end exactly at the line ends of the file (LF, FF, CR LF, CR), in order, one per line (plus one for a non-blank rest after the last line end); no byte is in two reports and every non-blank byte is in one. Refuted for Vim script, where the lines of a string with an escaped line end are merged.", "quantifier": "26 languages, every byte buffer without vertical tab", "why_tests_cant": "Universally quantified over files.", "anchors": ["src/parser_macros.h:std_newline", "src/parser_macros.h:process_last_line", "src/parsers/common.rl:newline"]}
{"id": "C21", "title": "Lines are classified according to the comment syntax", "statement": "For the same 26 languages and every file without vertical tab, the reports are exactly those of an independent line-by-line account: a line is blank iff it has only white space, a comment iff its text starts with a comment opener of the language, code otherwise; blank lines are reported by their line end, others in full. Expectations from the language definitions that fail are refuted: CALL in fixed-form Fortran and remainder in BASIC are comments, a single % in Erlang is code.", "quantifier": "26 languages, every byte buffer without vertical tab", "why_tests_cant": "Universally quantified over files.", "anchors": ["src/parsers/common.rl", "src/parser_macros.h"]}
{"id": "C22", "title": "A vertical tab stops line counting", "statement": "Expected: every line of a file is counted. Refuted: for the 26 line-oriented languages, after any whole lines a vertical tab ends the counting, whatever follows; for all 124 parser entries but haml a file that starts with a vertical tab has no line at all.", "quantifier": "every whole-line prefix and every continuation; every language", "why_tests_cant": "No test contains the character; the claim is for every continuation.", "anchors": ["src/parsers/common.rl:newline", "src/parsers/common.rl:ws"]}
{"id": "C23", "title": "Lines of files with strings and comments are counted once", "statement": "Expected: a file with n lines yields n line reports. Refuted for C: the lines of an unterminated block comment are reported twice, and the lines of a character or string literal that runs over line ends are merged into one report. Proved for 88 languages with comments and strings: a file of whole lines without vertical tab in which no comment or string opens that may run over the line end has exactly one report per line, ending at the line end.", "quantifier": "witness buffers; for the positive part all files of 88 languages that meet the condition", "why_tests_cant": "Backtracking only at end of file.", "anchors": ["src/parsers/c.rl", "src/parsers/java.rl", "src/parsers/shell.rl", "src/parser_macros.h"]}
{"id": "C24", "title": "Queued callbacks are committed atomically and in order", "statement": "Whatever sequence of scanner actions is executed, on any line counting machine, the callbacks delivered to the client are, in the order in which they were made, exactly the line reports made outside of a queued token or inside of one whose next queue event is a commit; reports of an abandoned token are never delivered, and abandoning it restores line start and flags. Every run of every parser is such a sequence, and every parser is such a machine.", "quantifier": "every sequence of enqueue/commit/line actions", "why_tests_cant": "All action interleavings.", "anchors": ["src/parser_macros.h:enqueue", "src/parser_macros.h:dequeue", "src/parsers/common.rl"]}
{"id": "C25", "title": "A path is split into directory, file name and extension", "statement": "For every path, directory + separator + file name is the path again, the file name has no separator, and the extension is the part after the last dot of the file name (empty when there is none).", "quantifier": "every path", "why_tests_cant": "All strings.", "anchors": ["src/sourcefile.c:ohcount_sourcefile_new"]}
{"id": "C26", "title": "Creating a source file does not read out of bounds", "statement": "Refuted: for every path without '.', '/' or '\\\\' (such as \"Makefile\") the constructor reads the byte before the path buffer; proved for all other paths.", "quantifier": "every path", "why_tests_cant": "The out-of-bounds read is silent in tests.", "anchors": ["src/sourcefile.c:ohcount_sourcefile_new"]}
{"id": "C27", "title": "Derived data of a source file are computed once and stable", "statement": "Along any sequence of API calls on a SourceFile, language, parse result and licence list are each computed at most once (unless explicitly set), and repeated queries return the same answer even if the file on disk changes meanwhile.", "quantifier": "every sequence of API calls and every history of disk changes", "why_tests_cant": "All interleavings of calls and file changes.", "anchors": ["src/sourcefile.c:ohcount_sourcefile_get_language", "src/sourcefile.c:ohcount_sourcefile_parse", "src/sourcefile.c:ohcount_sourcefile_get_license_list"]}
{"id": "C28", "title": "Contents set by the caller are returned", "statement": "After set_contents, get_contents returns the same bytes until parse is called or contents are set again; afterwards they are lost: the next read goes to the disk (refutes the expectation that set contents are stable).", "quantifier": "every sequence of API calls", "why_tests_cant": "Needs all histories.", "anchors": ["src/sourcefile.c:ohcount_sourcefile_set_contents", "src/sourcefile.c:ohcount_sourcefile_get_contents", "src/sourcefile.c:ohcount_sourcefile_parse"]}
{"id": "C29", "title": "Language tables are closed", "statement": "Every language that detection can produce through the extension, file-name and language tables has a line parser; every ambiguous extension names an existing disambiguator. Expected in addition: every language name is accepted by set_language; refuted for two of them.", "quantifier": "every entry of the tables", "why_tests_cant": "Tests touch a few entries; here all keys (any string) are covered.", "anchors": ["src/hash/extensions.gperf", "src/hash/filenames.gperf", "src/hash/languages.gperf", "src/hash/parsers.gperf", "src/hash/disambiguatefuncs.gperf"]}
{"id": "C30", "title": "Detection returns a known language or none", "statement": "Expected: the detected language is always NULL or a name of the language table. Refuted: .dat files can yield the internal marker \"\\1\". Proved: the answer is NULL, a known language or this marker; and NULL or a known language for every other known extension except .in, and for files without known extension and mode line.", "quantifier": "every file name, file contents, directory contents and libmagic answer", "why_tests_cant": "All file contents and all oracle answers.", "anchors": ["src/detector.c:ohcount_detect_language", "src/detector.c:disambiguate_dat"]}
{"id": "C31", "title": "Order of the tests of detection", "statement": "If the extension (exactly or in lower case) is mapped to a language, this language is returned whatever the contents, the directory or libmagic say; if it is mapped to `binary` the file has no language. Otherwise the emacs mode line decides, then the file name, then the word before \"script\" (or \"xml\") in the answer of libmagic; otherwise there is no language. is_binary_filename is true exactly for names whose last extension is mapped to `binary`.", "quantifier": "every contents, directory, libmagic answer, platform", "why_tests_cant": "Universally quantified over contents and environment.", "anchors": ["src/detector.c:ohcount_detect_language", "src/detector.c:ohcount_is_binary_filename"]}
{"id": "C32", "title": "Content disambiguators meet their specification", "statement": "Each disambiguator (.asx .dat .def .mod .inc .pro .r .rs .cs .pl .pp .fs .bas .b .aspx .h .st .f .m .in ...) computes a stated decision predicate of the contents and the directory. A Fortran file is in fixed form exactly if each of its statements keeps to the columns of the fixed form (label in 1-5, continuation in 6, no ampersand that continues a line up to 72). A .m file gets exactly the points that its lines, its operators and the names in its directory are worth. Expected but refuted: blank lines do not matter to Fortran; headers in the directory are a sign of Objective-C.", "quantifier": "every file contents and directory", "why_tests_cant": "Universally quantified over contents.", "anchors": ["src/detector.c:disambiguate_*"]}
{"id": "C33", "title": "Detector memory safety and termination", "statement": "Detection terminates on every input. It is memory safe for every unambiguous extension and for 13 of the 20 disambiguators whatever the contents, for .bas .b .m .st when all lines have at most 80 bytes, and for all known extensions except .in when one byte beyond the local arrays is accessible. Refuted in general: lines of 81 bytes, every .h file, every .aspx directive and every .in file write one byte past an array; a mode line naming `in` makes an array of negative length; an unterminated mode line and a libmagic answer starting with `script` read out of bounds.", "quantifier": "every file contents and file name", "why_tests_cant": "Exact-length boundary and all file names.", "anchors": ["src/detector.c:ohcount_detect_language", "src/detector.c:disambiguate_in", "src/detector.c:disambiguate_h", "src/detector.c:disambiguate_aspx", "src/detector.c:magic_parse"]}
{"id": "C34", "title": "Licence report is well formed", "statement": "Every reported licence is one of the known licences, is reported once, and the report is in the fixed table order, for every behaviour of the regular expression engine.", "quantifier": "every regex engine behaviour, every comment text", "why_tests_cant": "All oracle behaviours.", "anchors": ["src/licenses.c:ohcount_detect_license"]}
{"id": "C35", "title": "Licences reported", "statement": "Exactly those licences are reported that are mentioned in the comments, not just as part of the mention of another licence, and not superseded by a more specific one (GPL by GPL 3, GPL 3 by 'or later', 2-clause BSD by BSD); if any licence is mentioned, one is reported. Expected as well, and refuted: a licence mentioned on its own is reported although it is also mentioned earlier as part of another one ('lesser GPL ... GPL'); only the first match of each expression is looked at.", "quantifier": "every file as the parsers report it, every regular expression engine whose matches lie within the text", "why_tests_cant": "All combinations of matches.", "anchors": ["src/licenses.c:ohcount_detect_license"]}
{"id": "C36", "title": "Licences of all languages of a file are considered", "statement": "Expected: a licence text in the comments of any language of the file is reported. Refuted: only the last parsed language counts; proved for files with one language.", "quantifier": "every file with several languages", "why_tests_cant": "Depends on the order of languages.", "anchors": ["src/licenses.c:ohcount_detect_license"]}
{"id": "C37", "title": "Comment normalisation is safe", "statement": "The loop that puts comments on one line terminates, stays within its buffer of one byte more than the comments, and its result is exactly the lines without their margins (blanks and punctuation), each followed by one blank; no line end remains. Expected as well, and refuted: separators never become two blanks (they do at lines that have only a margin).", "quantifier": "every comment text", "why_tests_cant": "All texts, exact buffer boundary.", "anchors": ["src/licenses.c:ohcount_detect_license"]}
{"id": "C38", "title": "Report sorting", "statement": "Both sort routines of the command line tool return a permutation of the entries; sorting by language yields non-decreasing names, sorting by code yields non-increasing code counts.", "quantifier": "every list", "why_tests_cant": "All lists.", "anchors": ["src/ohcount.c:sort_loc_list_by_language", "src/ohcount.c:sort_loc_list_by_code"]}
{"id": "C39", "title": "Summary equals the sum of the individual reports", "statement": "The LOC list of a set of files equals, per language, the sum of the LOC lists of the files, and each language's file count is the number of files that contain it.", "quantifier": "every set of files", "why_tests_cant": "All file sets.", "anchors": ["src/ohcount.c:summary", "src/sourcefile.c:ohcount_sourcefile_list_analyze_languages"]}
{"id": "C40", "title": "Directory traversal", "statement": "Adding a directory adds each regular file that is reachable without passing through a symbolic link or a hidden directory exactly once, and nothing else.", "quantifier": "every directory tree", "why_tests_cant": "All trees.", "anchors": ["src/sourcefile.c:ohcount_sourcefile_list_add_directory"]}
{"id": "C41", "title": "File diff covers every language once", "statement": "The delta list of two file revisions has exactly one entry for each language present in either revision (compacted: with changes), and the delta of each language is the line diff of its code and comment texts and the blank counts.", "quantifier": "every pair of parse results", "why_tests_cant": "All pairs of revisions.", "anchors": ["src/sourcefile.c:ohcount_sourcefile_diff", "src/sourcefile.c:ohcount_sourcefile_calc_loc_delta"]}
{"id": "C42", "title": "File diff is antisymmetric", "statement": "Diffing in the opposite direction swaps added and removed for code, comments and blanks of every language.", "quantifier": "every pair of parse results for which both diffs are well defined", "why_tests_cant": "All pairs of revisions.", "anchors": ["src/sourcefile.c:ohcount_sourcefile_diff"]}
{"id": "C43", "title": "Large texts: every added and removed line is counted once", "statement": "For texts of more than 100000 bytes the result is the number of lines starting with '>' resp. '<' printed by the external diff program. Proved when each printed line has at most 9998 bytes plus newline; refuted beyond, because the 10000-byte read buffer splits longer lines and the continuation may start with '>' or '<'.", "quantifier": "every pair of texts and every output of the diff program", "why_tests_cant": "Needs lines of more than 9998 bytes with a specific byte at the split position.", "anchors": ["src/diff.c:ohcount_calc_diff_with_disk"]}
{"id": "C44", "title": "Line scanners have no undefined behaviour", "statement": "Expected: parsing a file never reads outside of the buffer, uses a NULL line start, overflows the stack of return states or a nesting counter. Proved for all languages but the html-like templates and rebol. Refuted for html, php, jsp, rhtml, cs_aspx, vb_aspx and clearsilver_template: a line break inside the closing tag of a style sheet uses a NULL line start; nothing else can go wrong there. rebol can only overflow its nesting counter, which is never reset.", "quantifier": "every language, every file of bytes whose size is an int", "why_tests_cant": "The scanners have hundreds of states per language and backtrack; the failing tag break is not in any test file, and the absence of such inputs for the other 115 languages cannot be established by running examples.", "anchors": ["src/parsers/*.rl", "src/parser_macros.h:std_internal_newline", "src/parser_macros.h:std_newline", "src/parser_macros.h:saw"]}
{"id": "C45", "title": "Regular expressions are read by their grammar; matching is sound, complete, leftmost and greedy", "statement": "A text is accepted as an expression, and read as a given expression, exactly if it is derived by the written-down grammar of the supported syntax. The matcher reports a match of an expression exactly if some stretch of the text matches it by the meaning of the expression; the reported match is a leftmost one and, at its place, the one preferred by greediness and order of alternatives. All expressions of the program are in the supported syntax.", "quantifier": "every text of an expression, every text to search, all options", "why_tests_cant": "Infinitely many texts; backtracking hides missed matches.", "anchors": ["src/licenses.c:license_map", "src/detector.c:disambiguate_pp", "src/detector.c:disambiguate_pl"]}
{"id": "C46", "title": "Licence detection does not depend on letter case", "statement": "Changing the case of letters in comments changes neither whether nor where a licence is mentioned, except for the two BSD-like licences with case-sensitive expressions; if these are not mentioned, the report is the same.", "quantifier": "every pair of comment texts that differ only in case, every licence", "why_tests_cant": "Exponentially many spellings of each text.", "anchors": ["src/licenses.c:license_map", "src/licenses.c:ohcount_detect_license"]}
{"id": "C47", "title": "Licence names are recognised across line breaks", "statement": "For 61 names of licences: if the words of the name stand in the comments of a file of one language, in any case, separated by blanks or by line ends and comment margins, the licence is mentioned, something is reported, and it is this licence unless the mention is part of another one or a more specific licence is mentioned. Expected as well, and refuted: 'what the fuck public license' is recognised (the expression has a form feed).", "quantifier": "every file, every spelling, every line breaking and margin", "why_tests_cant": "Unbounded ways of breaking and decorating lines.", "anchors": ["src/licenses.c:license_map", "src/licenses.c:ohcount_detect_license"]}
{"id": "C48", "title": "Puppet and Perl are recognised as their descriptions say", "statement": "A .pp file is Puppet exactly if in its first 10000 bytes a line starts with a resource attribute or a definition (define, class, node, import, include), otherwise Pascal. A .pl file is Prolog exactly if it has a rule and no Perl interpreter line in its first 100 bytes, otherwise Perl.", "quantifier": "every file contents", "why_tests_cant": "Infinitely many contents.", "anchors": ["src/detector.c:disambiguate_pp", "src/detector.c:disambiguate_pl"]}
{"id": "C49", "title": "Comments and strings decide the kind of a line", "statement": "For 88 languages (actionscript to vim) and every file accepted by an independent left-to-right account of the language (comments and strings closed, no vertical tab outside of them; no documentation in Perl): the reports are exactly those of the account: a line is code if it has code or the text of a string outside of comments, otherwise a comment if it has comment text, otherwise blank. Languages with the same comments and strings are counted alike.", "quantifier": "every file contents accepted by the account", "why_tests_cant": "The scanners read ahead and back up; comments and strings nest and overlap in infinitely many ways.", "anchors": ["src/parsers/c.rl", "src/parsers/java.rl", "src/parsers/python.rl", "src/parsers/ocaml.rl", "src/parsers/lisp.rl", "src/parsers/perl.rl", "src/parsers/vim.rl", "src/parser_macros.h", "src/parsers/common.rl"]}
{"id": "C50", "title": "One report per line in files with closed comments", "statement": "For the same 88 languages and accepted files: the reports end exactly at the line ends of the file (LF, FF, CR LF, CR), one each and in order, plus at most one for what follows the last line end; each starts where the one before ended unless it is blank.", "quantifier": "every file contents accepted by the account", "why_tests_cant": "Infinitely many files; multi-line tokens.", "anchors": ["src/parser_macros.h", "src/parsers/common.rl"]}
{"id": "C51", "title": "The body of a block comment is never code", "statement": "For every language of the 88 with a multi-line comment that counts as such: a file that starts with such a comment and a line end, whatever is in the comment (code, quotes, other comment marks), reports its lines as comments, or blank where the line is blank, and the rest exactly as if it were a file of its own.", "quantifier": "every comment body without the closing, every accepted rest", "why_tests_cant": "Unbounded comment bodies.", "anchors": ["src/parsers/c.rl", "src/parsers/css.rl", "src/parsers/xml.rl", "src/parsers/ocaml.rl"]}
{"id": "C52", "title": "A line comment ends with its line", "statement": "For every language of the 88 with a line comment: a file that starts with one reports its first line as comment, whatever its text, and the rest exactly as if it were a file of its own.", "quantifier": "every comment text, every accepted rest", "why_tests_cant": "Unbounded comment text.", "anchors": ["src/parsers/c.rl", "src/parsers/shell.rl", "src/parsers/ruby.rl"]}
{"id": "C53", "title": "Comment marks inside of strings do not count", "statement": "For every language of the 88 with strings: a file that starts with a string closed on its line reports that line as code, whatever the string holds, and the rest exactly as if it were a file of its own.", "quantifier": "every string body without closing, line end and escape, every accepted rest", "why_tests_cant": "Unbounded string bodies.", "anchors": ["src/parsers/c.rl", "src/parsers/java.rl", "src/parsers/javascript.rl"]}
{"id": "C54", "title": "Lines of comments are comments", "statement": "Expected: no line of a closed comment is code, the line of its closing is not blank, a word does not open a comment. Refuted: the bodies of (* *) in Pascal, /* */ in Puppet, %{ %} in Matlab and Octave are code; a closing } or ) or quote alone on its line is blank in Pascal, SQL, Forth, Smalltalk, and so is the closing quote of a string in shell and CSS; =beginning opens a comment in Ruby, and the name remote makes BlitzMax report a line twice.", "quantifier": "witness buffers", "why_tests_cant": "The test data do not have these lines.", "anchors": ["src/parsers/pascal.rl", "src/parsers/puppet.rl", "src/parsers/matlab.rl", "src/parsers/octave.rl", "src/parsers/sql.rl", "src/parsers/forth.rl", "src/parsers/smalltalk.rl", "src/parsers/shell.rl", "src/parsers/css.rl", "src/parsers/ruby.rl", "src/parsers/blitzmax.rl"]}
{"id": "C55", "title": "Recording what a parser reports is safe", "statement": "For every language and every file, no report of the parser ends inside a run of blanks. So handing its reports to the parse callback is free of undefined behaviour (the negative copy length of C16 cannot arise), and the record holds exactly the reported lines, stripped, per language, as far as they fit, provided the number of reports is an int.", "quantifier": "every language, every file of bytes whose size plus five is an int", "why_tests_cant": "The failing copy needs a report that ends between two blanks; that no path through any of the 124 scanners, including their backtracking, makes one cannot be seen from runs.", "anchors": ["src/sourcefile.c:parser_callback", "src/parsers/*.rl", "src/parser_macros.h:std_internal_newline", "src/parser_macros.h:std_newline", "src/parser_macros.h:process_last_line"]}
{"id": "C56", "title": "At most one report per line, and counters that do not overflow", "statement": "Expected: the number of reports is bounded by the number of lines, and recording them cannot overflow. Refuted for C: on n openings /* without a closing, each followed by an empty line, the parser makes n(n+2) reports for 2n lines, because every opening is read to the end of the file before it is given up. From n = 65536 (a file of 256 kB) the callback overflows the int that counts blank lines, which is undefined.", "quantifier": "every number n of openings (file size an int)", "why_tests_cant": "No test file has unclosed comments; the overflow needs two thousand million reports, hours of running.", "anchors": ["src/parsers/c.rl", "src/sourcefile.c:parser_callback", "src/parser_macros.h:std_internal_newline"]}
{"id": "C57", "title": "The count of one file, from its name and text", "statement": "For a file whose extension is that of a language and whose text has an account (by lines, C21, or by comments and strings, C49), `ohcount -i` prints one row: the language, and the numbers of code, comment and blank lines of the account; for a text of whole lines they add up to the number of line ends. (No row for a file without lines.)", "quantifier": "every path, language, text and platform; all answers of libmagic and PCRE", "why_tests_cant": "Infinitely many texts; the end-to-end path through detection, parser, record and report.", "anchors": ["src/ohcount.c:main", "src/ohcount.c:individual", "src/detector.c:ohcount_detect_language", "src/parser.c:ohcount_parse"]}
{"id": "C58", "title": "The reports of an invocation", "statement": "For an invocation about any files and directories whose files have an account or the extension of a binary file, the summary is about exactly the files named or reachable (one entry per argument that names it), has one row per language that occurs, with the lines of all files in the language and the number of files, by decreasing code, and their totals; the individual report has the rows of each file by language. Arguments that name nothing are complained about.", "quantifier": "every list of arguments, file system, and contents", "why_tests_cant": "All trees, all contents, all argument lists.", "anchors": ["src/ohcount.c:main", "src/ohcount.c:summary", "src/ohcount.c:individual"]}
{"id": "C59", "title": "Options", "statement": "The options are those of the help text; the first argument decides alone what is done; help is printed whatever else is named; an argument that is neither an option nor a path is complained about and otherwise without effect if a path follows. Expected as well, and refuted: alone it leaves the current directory to be counted (it is taken as a path, and nothing is counted).", "quantifier": "every list of arguments", "why_tests_cant": "All argument lists.", "anchors": ["src/ohcount.c:main", "src/ohcount.c:help", "src/hash/options.gperf"]}
{"id": "C60", "title": "Annotation stays within its buffer", "statement": "Expected: `ohcount -a` prints each reported line. Refuted: for every invocation about a file with at least one line, the callback writes the final NUL one byte after its array.", "quantifier": "every list of arguments, file system and contents", "why_tests_cant": "The byte usually is padding on the stack.", "anchors": ["src/ohcount.c:annotate_callback"]}
{"id": "C61", "title": "Detection prints the language of every file", "statement": "If all files named or reachable are source files, `ohcount -d` prints for each its language, by its extension, and its path. Expected as well, and refuted: it does so for source files among others; whenever one of the files is of a known binary kind, it passes a null pointer to printf's %s, which is undefined.", "quantifier": "every list of arguments, file system and contents", "why_tests_cant": "The C library of the tests prints (null).", "anchors": ["src/ohcount.c:detect", "src/sourcefile.c:ohcount_sourcefile_list_add_file"]}
{"id": "C62", "title": "The licences of an invocation", "statement": "`ohcount -l` prints for every file, with the file name, exactly the licences that are to be reported for the comments of the file (C35), in the order of the table, with a comma after each but the last.", "quantifier": "every list of arguments, file system and contents, every regular expression engine", "why_tests_cant": "All contents.", "anchors": ["src/ohcount.c:licenses", "src/licenses.c:ohcount_detect_license"]}
{"id": "C63", "title": "Searching for entities is safe", "statement": "Asked for the entities of a file (`ohcount -re`), the parser of every language but limbo, rebol and the seven html-like ones ends within a number of steps quadratic in the size of the file and runs into no undefined behaviour; rebol fails at most by overflowing its nesting counter, the html-like ones at most by using a null pointer. Expected as well, and refuted: limbo's parser reads outside of its table of names on a byte it does not know, and the html-like ones do use a null pointer on a broken end tag.", "quantifier": "every language and file", "why_tests_cant": "No test of the repository covers all files of a language; the undefined behaviour need not crash.", "anchors": ["src/parsers/*.rl", "src/parsers/limbo.rl", "src/parsers/html.rl"]}
{"id": "C64", "title": "Entities lie within the file, in order", "statement": "Every entity reported is a non-empty range of bytes of the file, labelled with the language or one of its embedded languages and with a name of that language's kinds of entities; the ranges do not overlap and come in the order of the file (languages with a usable search for entities). Expected as well, and refuted: modelica reports the same bytes twice, as a line and as an entity.", "quantifier": "every language and file", "why_tests_cant": "All files.", "anchors": ["src/parsers/*.rl", "src/parser_macros.h:callback"]}
{"id": "C65", "title": "White space is found exactly", "statement": "Every report of kind space is a run of white space that ends where the white space ends; no other entity begins with white space; every byte of white space of the file belongs to some report. Expected as well, and refuted: in brainfuck, bfpp and haml other entities may begin with white space.", "quantifier": "every file, 110 languages", "why_tests_cant": "All files.", "anchors": ["src/parsers/*.rl"]}
{"id": "C66", "title": "The entities of C-like languages make up the file", "statement": "For C and its relatives, lua, kotlin, rust, rebol, brainfuck and haml, the concatenation of the bytes of the entities reported is the file, byte by byte: nothing is lost or duplicated.", "quantifier": "every file of these languages", "why_tests_cant": "All files.", "anchors": ["src/parsers/c.rl:c_entity", "src/parsers/lua.rl", "src/parsers/rust.rl", "src/parsers/rebol.rl"]}
{"id": "C67", "title": "The labels of entities", "statement": "factor and vim never report an entity, whatever the file. Expected and refuted: that an entity's label is its kind; in all C-like languages each one-letter name and + are reported as `any`, the beginning of a keyword as a keyword, / as a comment if a * follows that opens no comment, and # as a directive if a letter follows that begins none.", "quantifier": "every file; every letter", "why_tests_cant": "The tests contain few one-letter names.", "anchors": ["src/parsers/c.rl:c_entity", "src/parsers/factor.rl", "src/parsers/vim.rl"]}
{"id": "C68", "title": "The command line reports are defined on any files: they account for the reports that find room", "statement": "For the files that `ohcount -s`, `-i` and `-l` are given (names with a dot or a separator, detection answered, language not one of the HTML-like ones or rebol, no NUL byte, sizes and sums within int), whatever the files contain: no operation is undefined, and the result is the count of exactly those reports of the parser whose bytes still fit into the per-language buffers (`parser_callback` stops recording when a buffer is full). Reports that do not fit change neither counts nor texts. If every report fits, all are recorded.", "quantifier": "for all lists of files with any contents and all detections", "why_tests_cant": "Buffers fill up only when reports overlap, which needs unusual inputs of particular languages; tests see a handful of such files.", "anchors": ["src/sourcefile.c:parser_callback", "src/parsed_language.c:ohcount_parsed_language_new", "src/parsed_language.c:ohcount_parsed_language_add_code", "src/parsed_language.c:ohcount_parsed_language_add_comment", "src/ohcount.c:summary", "src/ohcount.c:individual", "src/ohcount.c:licenses"]}
{"id": "C69", "title": "`ohcount -re` lists the entities of any files", "statement": "For such files whose language is not limbo either, `ohcount -re` prints for each file, in order, one line per report of the entity machine (language, entity name, offsets), in the order of the reports and nothing else, whatever the files contain, and no operation is undefined.", "quantifier": "for all lists of files with any contents and all detections", "why_tests_cant": "Outputs are unbounded and the entity machines depend on every byte; tests compare a few golden files.", "anchors": ["src/ohcount.c:raw_entities", "src/ohcount.c:raw_entities_callback", "src/sourcefile.c:ohcount_sourcefile_parse_entities_with_callback"]}
{"id": "C70", "title": "Calls in order never misuse memory", "statement": "A client that uses only what it still holds, frees no file of a list by itself, adds no list to itself and gives no file its own contents never makes the library use a freed block or NULL, take one object for another, free twice or run in circles, whatever files, detection, scanners and system answer; afterwards everything it holds is still there. The last two side conditions are needed: adding a LocDeltaList with two items to itself never ends.", "quantifier": "for all sequences of API calls in order and all answers of the outside world", "why_tests_cant": "Which blocks are alive depends on the whole history of calls and on lazily computed fields; tests make a few short histories.", "anchors": ["src/sourcefile.c", "src/loc.c", "src/parsed_language.c", "src/licenses.c", "src/diff.c:ohcount_calc_diff", "src/parser_macros.h:enqueue", "src/parser_macros.h:free_queue"]}
{"id": "C71", "title": "What is never given back", "statement": "After a client in order has freed all it has, whatever is still allocated is the scanners' queue (reachable from its head), a text in which licences were looked for, a name of a temporary file, or an empty ParsedLanguage made for a difference, the last three only if licences or differences were asked for. So nothing but the queue remains for a client that asks for neither. That nothing remains at all is refuted: each call of ohcount_sourcefile_calc_loc_delta loses an empty language with its two texts, looking for licences can lose its buffer, the diff loses names of temporary files.", "quantifier": "for all sequences of API calls in order that free everything, all answers of the outside world", "why_tests_cant": "Leaks show in no output; each depends on a branch (large text, missing language) that tests rarely take.", "anchors": ["src/sourcefile.c:ohcount_sourcefile_calc_loc_delta", "src/sourcefile.c:ohcount_sourcefile_free", "src/licenses.c:ohcount_detect_license", "src/diff.c:tmp_file_from_buf", "src/parser_macros.h:free_queue"]}
{"id": "C72", "title": "How long contents stay valid", "statement": "The pointer that ohcount_sourcefile_get_contents returns stays valid, and is what the next call returns, until the file itself is parsed (also by asking for counts, licences or a difference), given other contents or freed; nothing done to other files matters. Expected but refuted: parsing keeps it. Giving a file its own contents uses freed memory.", "quantifier": "for all sequences of API calls in order and all answers of the outside world", "why_tests_cant": "Lifetimes are a property of all interleavings of calls on several files.", "anchors": ["src/sourcefile.c:ohcount_sourcefile_get_contents", "src/sourcefile.c:ohcount_sourcefile_set_contents", "src/sourcefile.c:ohcount_sourcefile_parse"]}
{"id": "C73", "title": "A file is scanned as if it were the first one", "statement": "The scanners share global variables that no parser resets at its start (the saved line state and the queue of callbacks). In any sequence of calls of ohcount_parse in one process, for any languages and texts, to count or for entities, and whatever an earlier scan has left behind, each call reports exactly what it reports in a fresh process. Any number of files can be counted so, without a scan getting stuck.", "quantifier": "every sequence of calls, every language and text, every value of the variables that survive", "why_tests_cant": "Leaks of state between files show only for particular pairs of files; the sequences are unbounded.", "anchors": ["src/parser_macros.h:init", "src/parser_macros.h:enqueue", "src/parser_macros.h:dequeue", "src/parsers/common.rl:enqueue", "src/parser.c:ohcount_parse"]}
{"id": "C74", "title": "The printed summary can be read back: one line per language, every field a word", "statement": "When the tool prints a summary of the files an invocation names, the text is: a line 'Bad argument: …' for each path that names nothing, then 'Examining N file(s)' with N the number of files, five lines of heading, one line for each language found and no other (languages with more code first), a rule, and a line of totals. Split at spaces, each line is the language's name followed by the decimal numerals of its files, its code lines, its comment lines, the percentage of comments, its blank lines and all its lines; the last line has the sums of these columns. All lines below the title are 78 characters wide, as the headings are, if counts fit their columns. The last proviso is needed: clearsilver_template and metapost_with_tex, alone of all language names, are too long for their column, and so are a million files.", "quantifier": "all invocations, directory trees and file contents (files with an account, or any file without a failing parser), all counts", "why_tests_cant": "The layout is produced by a dozen printf calls with widths; tests see a handful of small tables, not all magnitudes and names.", "anchors": ["src/ohcount.c:202-250", "src/ohcount.c:279"]}
{"id": "C75", "title": "The printed percentage is the true one to a tenth of a percent", "statement": "For all nonnegative numbers of comment and code lines, not both 0, the percentage printed (computed in single precision) lies between 0.0 and 100.0 and differs from the exact ratio by at most half a tenth and a thousandth of a tenth. No comments print as 0.0% and no code as 100.0%. The converse is false: one comment among 2001 lines prints as 0.0%, one code line among 2002 as 100.0%; and exact halves are rounded to even (1 of 16 is 6.2%).", "quantifier": "all pairs of counts, without bound", "why_tests_cant": "Floating point error analysis over all pairs of ints; sampling cannot bound it.", "anchors": ["src/ohcount.c:167-172", "src/ohcount.c:224-229", "src/ohcount.c:243-246"]}
{"id": "C76", "title": "The printed report on single files can be read back, unless a path has a line end in it", "statement": "The text of -i is four lines of heading and, for each file in the order they were found and each of its languages in alphabetical order, a line with the language's name, its code, comment, blank and total lines as decimal numerals, the percentage of comments if there is code or comment, and after two spaces the path. The path starts in column 74 when counts fit their columns. Two expectations are false: without code and comments the percentage is left out, so that such rows have fewer words (the summary prints 0.0%); and the text of one file whose name contains a line end is the same as that of two files.", "quantifier": "all invocations, directory trees, file contents and counts", "why_tests_cant": "Depends on names, counts and the order of printf calls; a name with a line end is legal on the platform but never in test data.", "anchors": ["src/ohcount.c:145-181"]}
{"id": "C77", "title": "What -d, -l and -re print determines what was found", "statement": "From the text that -d, -l or -re print (including complaints) the items can be recovered: two lists of items with the same text are equal, if no path contains a line end, languages and entities are words and positions are not negative; for -d on files with an account this is shown of whole invocations. Fields are separated by tabs (language, path; language, entity, start, end), licences are followed by a comma exactly if another licence of the file follows. With a line end in a path this is false.", "quantifier": "all lists of items of each command; all invocations for -d", "why_tests_cant": "Injectivity of an output format is a statement about all pairs of outputs.", "anchors": ["src/ohcount.c:31-66", "src/ohcount.c:279"]}
{"id": "C78", "title": "Platforms and tools are reported exactly if one of their definitions holds", "statement": "After an analysis that returns, a platform or tool is in the result exactly if one of its definitions holds, where a definition may ask for other members of the result (the solution is what the definitions say, and for the shipped 97 definitions it is the only one). This holds for every table in which alternatives are not searches for filenames and in which a negated gestalt is settled before it is asked for; the shipped table is one. For the shipped definitions in another order it is false: ejb3.0 is then reported beside ejb3.1.", "quantifier": "all tables of that kind, all lists of files with non-negative counts, all behaviours of Ruby's Regexp and REXML, all earlier uses of the library", "why_tests_cant": "Exactness of a fixpoint with negation depends on the order in which definitions fire, which differs from project to project.", "anchors": ["ruby/gestalt/gestalt_engine.rb:46-81", "ruby/gestalt/definition.rb:37-75", "ruby/gestalt/definitions.rb:16-353", "ruby/gestalt/java_definitions.rb:6-240"]}
{"id": "C79", "title": "The inference of platforms always ends, and raises exactly if a rule cannot read a file", "statement": "analyze_gestalt returns if every rule can read every file and raises NoMethodError if not; nothing else happens. calc_gestalts ends for every state of an engine, after at most two passes more than definitions are left. Base.find_gestalts raises NoMethodError for every argument, because process_source_file_list does not exist.", "quantifier": "all tables, files, engines and stores", "why_tests_cant": "The loop ends when a pass finds nothing new; that it cannot run forever is a statement about all rule sets.", "anchors": ["ruby/gestalt/gestalt_engine.rb:22-74", "ruby/gestalt/base.rb:30-33", "ruby/gestalt.rb:21-43"]}
{"id": "C80", "title": "Without negation the order of the definitions does not matter", "statement": "For tables without negation the result is the least set that is closed under the definitions, so any permutation of the table finds the same platforms and tools.", "quantifier": "all tables without negation whose alternatives are not searches for filenames, all their permutations, all files", "why_tests_cant": "There are more permutations of a table than tests.", "anchors": ["ruby/gestalt/gestalt_engine.rb:46-74"]}
{"id": "C81", "title": "A gestalt is listed once for every definition that holds", "statement": "The list that an analysis returns is, up to order, one entry with count 1 for each definition that holds. With the shipped table everything is listed at most once, except openesb, which is defined twice and listed twice.", "quantifier": "all tables as in C78, all files", "why_tests_cant": "Shown for every table entry, every set of files and every behaviour of the regular expressions and the XML parser at once; a test fixes all of them.", "anchors": ["ruby/gestalt/gestalt_engine.rb:50-71", "ruby/gestalt/definition.rb:37-41", "ruby/gestalt/java_definitions.rb:206", "ruby/gestalt/java_definitions.rb:237"]}
{"id": "C82", "title": "An analysis does not depend on the analyses before it", "statement": "Whatever analyses and calls of find_gestalts came before, including ones that raised an exception half way, an analysis returns the same, although clones of rules share arrays with their originals. But FileRule.instances grows with each of them by the number of rules that look for filenames (7 in the shipped table) and so has no bound.", "quantifier": "all tables, all sequences of earlier calls, all files", "why_tests_cant": "Shared state between a clone and its original shows only after particular sequences of calls.", "anchors": ["ruby/gestalt/rules/file_rule.rb:9-45", "ruby/gestalt/rules/find_filenames_rule.rb:16-29", "ruby/gestalt/rules/logical_rule.rb:16-21", "ruby/gestalt/definition.rb:56-59"]}
{"id": "C83", "title": "The order of the files does not matter, and more files only add where no share or absence is asked for", "statement": "The result (including the order of the list) is the same for every order of the files. If no definition asks for a share of the code or for the absence of something, more files never remove a platform; with the shipped table they can.", "quantifier": "all tables as stated, all lists of files, all permutations, all additional files", "why_tests_cant": "The order of a directory listing is chosen by the system; tests see one.", "anchors": ["ruby/gestalt/gestalt_engine.rb:22-27", "ruby/gestalt/gestalt_engine.rb:96-126", "ruby/gestalt.rb:31-39"]}
{"id": "C84", "title": "Language platforms depend on the share of the code, with gaps", "statement": "visualbasic, ruby, java, javascript, php, sql, python and perl are reported exactly if the language occurs and makes up the percentage that the definition asks for, of the code in known programming languages. It is not a share of all code: CoffeeScript is left out of the whole, so ruby is reported for 1 line in 100. An engine to which files are added after calc_gestalts keeps the old shares, and raises NoMethodError for a new language.", "quantifier": "all lists of files with non-negative counts", "why_tests_cant": "The threshold is an exact inequality between sums over all files.", "anchors": ["ruby/gestalt/gestalt_engine.rb:84-126", "src/hash/languages.gperf:27", "ruby/gestalt/rules/language_rule.rb:16-22"]}
{"id": "C85", "title": "The shipped definitions ask for defined gestalts but not always for existing languages", "statement": "Every platform or tool that a shipped definition asks for is defined. native_code is reported exactly if C, C++ or Haskell make up 5 percent: the other five names in its definition (cncpp, assembly, d, fortran, cobol) are not names that the tool reports, so no project in Fortran, D or assembler alone is native code. The keywords that windows_ce_incomplete looks for in \"vb\" are never found.", "quantifier": "all lists of files whose languages are those of the tool", "why_tests_cant": "Shown for every table entry, every set of files and every behaviour of the regular expressions and the XML parser at once; a test fixes all of them.", "anchors": ["ruby/gestalt/definitions.rb:343-352", "ruby/gestalt/definitions.rb:337-340", "src/hash/languages.gperf"]}
{"id": "C86", "title": "A pom.xml reports its plain dependencies and plugins, one by one and in order", "statement": "For a project whose dependencies and plugins contain at most one group and one artifact each and nothing else that ends in an identifier, exactly those that have both are reported, in order; identifiers lose the whitespace around them and a variable ${...} inside; for a project of another namespace nothing is reported. Reading raises NoMethodError exactly if a groupId or artifactId ends before the document had any text. With exclusions the identifiers of the exclusion are reported instead, a plugin is reported with those of its own dependency, and an empty groupId takes the text before it.", "quantifier": "all streams of XML events", "why_tests_cant": "The listener is a state machine over event streams of any length; nesting is unbounded.", "anchors": ["ruby/gestalt/rules/maven_parser.rb:5-51", "ruby/gestalt/rules/maven_rule.rb:21-35"]}
{"id": "C87", "title": "A file rule holds exactly if some file shows what it looks for", "statement": "A rule that asks for one hit (all shipped rules but three) holds exactly if its expression matches in the first breakdown of its language in some file, in a path, or in what the XML document of a project file reports. Not what one would expect: keywords looked for in C and C++ are not seen in the C++ code of a file that also has C code.", "quantifier": "all lists of files, all behaviours of the regular expressions and of the XML parser", "why_tests_cant": "A test fixes the files and the regular expression engine; here the counters that rule objects carry from file to file are shown to say exactly this for every sequence of files.", "anchors": ["ruby/gestalt/rules/c_keyword_rule.rb", "ruby/gestalt/rules/keyword_rule.rb", "ruby/gestalt/rules/file_rule.rb", "ruby/gestalt/rules/csproj_parser.rb"]}
{"id": "C88", "title": "Which Ruby programs never touch freed memory", "statement": "A program with SourceFile and SourceFileList objects survives every possible behaviour of the garbage collector exactly if, at each call, some variable still holds each SourceFile, SourceFileList and array of strings whose memory the call reaches, and filenames are only asked for after they were set. So assigning each variable once and forgetting none is enough. Refuted: that the objects which methods return keep their origin alive (a breakdown used after its SourceFile, the sf of a list after the list, filenames after the array they were set from), and that filenames or each work on a new SourceFile (null pointer).", "quantifier": "all straight-line programs over the Ruby classes and all schedules of the garbage collector", "why_tests_cant": "Whether freed memory is used depends on when the collector runs; a test sees one schedule, and freed memory often still looks intact.", "anchors": ["ruby/ohcount.i:19-25", "ruby/ohcount.i:87-136", "ruby/ohcount.i:205-209", "ruby/ohcount.i:282-293", "ruby/ohcount.rb:10-70", "src/sourcefile.c:326-342"]}
{"id": "C89", "title": "What the Ruby classes leave behind", "statement": "Of the blocks that filenames=, diff and analyze_languages allocate, exactly one is freed for each collected SourceFile.new object that has filenames; all others stay until the process ends. So the memory lost by a program that holds nothing any more has no bound: each diff loses its list.", "quantifier": "all straight-line programs over the Ruby classes and all schedules of the garbage collector", "why_tests_cant": "A leak shows in no result; the count must hold for every program and every schedule.", "anchors": ["ruby/ohcount.i:109-120", "ruby/ohcount.i:205-209", "ruby/ohcount.i:282-293", "src/sourcefile.c:255-286", "src/sourcefile.c:326-342"]}
{"id": "C90", "title": "Counts are called equal or unchanged exactly if they are", "statement": "ohcount_loc_is_equal and ohcount_loc_delta_is_equal hold exactly if language and every count agree. ohcount_loc_delta_is_changed is false exactly if adding the delta to any other of its language changes nothing. A delta with net effect zero may well be changed.", "quantifier": "all counts and deltas", "why_tests_cant": "The claims range over all values of all fields at once; a test that varies one field at a time may miss a field.", "anchors": ["src/loc.c:35-39", "src/loc.c:215-229"]}
{"id": "C91", "title": "The list of gestalts is printed in one order, whatever the sort, and can be read back", "statement": "The output of ruby/gestalt.rb for a number of files and a list of gestalts is unique although Ruby's sort is not stable, and depends neither on the order of the gestalts nor on that in which the files were added; the lines are in the order of types, then of counts (greatest first), then of names; if no type contains a tab and no type or name a line end, the gestalts can be read back from the output.", "quantifier": "every list of gestalts, every sorting algorithm, every order of the files", "why_tests_cant": "Uniqueness is over all sorting algorithms and permutations.", "anchors": ["ruby/gestalt.rb:74-89", "ruby/gestalt/base.rb:19-28"]}
{"id": "C92", "title": "Which changes of a line the diff notices", "statement": "The in-memory diff notices every change of a single byte of a line (added = removed = 1). If two different bytes of a line are exchanged, this is noticed unless their distance is a multiple of 16; then the diff is always empty. Two lines that differ moderately are confused only if the weighted sums of their bytes agree modulo 65535, and always if the sums are equal.", "quantifier": "every pair of texts of at most 100000 bytes that differ in such a line, wherever their diff is defined (C12)", "why_tests_cant": "Needs lines longer than 16 characters with exchanged characters; that no single change is missed is a statement about all lines.", "anchors": ["src/diff.c:282-308", "src/diff.c:hash", "src/diff.c:prepare", "src/diff.c:ohcount_calc_diff"]}
{"id": "C93", "title": "The command line tool never misuses the heap", "statement": "Whatever the command (annotate, detect, help, individual, licenses, raw entities, summary), the number of files, their contents and the answers of the system, the calls that ohcount.c makes, including its own sorting of counts by exchanging pointers and its walks over lists, never use a freed block or NULL, take one object for another, free twice or run in circles. At exit nothing is allocated but the queue of the scanners and, for --license only, texts in which licences were looked for; both exceptions occur.", "quantifier": "for all commands, all numbers of files and all answers of the outside world", "why_tests_cant": "The tests run the tool on a few small directories and do not look at the heap; the sorting exchanges depend on the counts of all files.", "anchors": ["src/ohcount.c:main", "src/ohcount.c:sort_loc_list_by_language", "src/ohcount.c:sort_loc_list_by_code", "src/ohcount.c:summary", "src/ohcount.c:individual", "src/ohcount.c:licenses"]}
{"id": "C94", "title": "A quote or an equals sign does not hide lines (refuted)", "statement": "Expected: a comment after code in Vim script ends with its line, and a line of Perl with an equals sign alone on it, or at its start, is code. Refuted: after code on a line, a double quote that is not closed on that line makes the Vim parser give up, and the whole rest of the file, whatever it is and however long the comment, is one line of code. In Perl a line with nothing but an indented equals sign is blank, and after a line that starts with one (no documentation) all lines are comments.", "quantifier": "for Vim every comment text and every continuation of the file; witness files for Perl", "why_tests_cant": "No test of Vim has a comment after code; the claim is for every continuation.", "anchors": ["src/parsers/vim.rl:vim_dq_str", "src/parsers/vim.rl:vim_line", "src/parsers/perl.rl:perl_block_comment", "src/parsers/perl.rl:perl_line"]}
{"id": "C95", "title": "The counts of a file are those of its parts", "statement": "For 81 languages with comments and strings over several lines: if a file is put together from two texts, the first of which ends with a line feed outside of every comment and string and has no opening that was passed over because it is not closed, and both of which the account of the language accepts, then the reports for the file are those for the first text followed by those for the second, moved by the length of the first. Hence the two texts in either order give the same lines of each kind and length (if the second is like the first), and empty lines put between them are blank lines and change nothing else. For the 26 languages counted line by line this holds whenever the first text consists of whole lines (and there is no vertical tab). Refuted without the condition: in C an apostrophe that is not closed in the first text may be closed in a comment of the second; the comment is lost and one report covers both lines.", "quantifier": "every language of the tables, every pair of texts, every fuel above the bound; a witness for the refutation", "why_tests_cant": "Each pair of files would be a test; the claim is for all of them, of any length.", "anchors": ["src/parser.c:ohcount_parse", "src/parser_macros.h:std_newline", "src/parser_macros.h:process_last_line", "src/parsers/c.rl:c_sq_str"]}
{"id": "C96", "title": "Line ends LF and CR LF are counted alike", "statement": "If two files differ only in that some lines end with CR LF instead of LF (also mixed), the parser reports the same number of lines, of the same language and kind and in the same order. This holds for the 26 languages counted line by line (files without vertical tab) and for 80 of the languages with comments and strings over several lines (files the account of the language accepts). Refuted for the parsers of Modelica, Lisp (also Scheme, Emacs Lisp, Racket, Clojure), Stratego, Mathematica and REBOL: in a string over several lines CR LF gives other lines than LF.", "quantifier": "every language of the tables, every pair of files that are alike, every fuel above the bound; a witness per parser for the refutation", "why_tests_cant": "The test files of the repository have LF; every file and every choice of line ends would be a test.", "anchors": ["src/parsers/common.rl:newline", "src/parser.c:ohcount_parse", "src/parsers/modelica.rl:string", "src/parsers/lisp.rl:lisp_regular_string", "src/parsers/rebol.rl:rebol_dq_str"]}
{"id": "C97", "title": "How many blanks there are does not matter", "statement": "If two files differ only in how many spaces and tabs there are at places where both have some (indentation, between words, in comments and strings), and no blank follows a backslash, the parser reports the same number of lines, of the same language and kind and in the same order. This holds for the 26 languages counted line by line (files without vertical tab) and for 72 of the languages with comments and strings over several lines (files the account of the language accepts). Refuted for BlitzMax, where `end  rem` with two spaces does not end a comment (three lines are counted as six), and for Lisp, Stratego and Mathematica, where a string or character of one space is not one of two.", "quantifier": "every language of the tables, every pair of files that differ in blanks only, every fuel above the bound; a witness per parser for the refutation", "why_tests_cant": "Reindenting a file must not change its counts; every file with every choice of blanks would be a test, and inside comments and strings no test has more than a few.", "anchors": ["src/parsers/common.rl:ws", "src/parsers/common.rl:spaces", "src/parser.c:ohcount_parse", "src/parsers/blitzmax.rl:blitzmax_rem_block_comment", "src/parsers/stratego.rl:stratego_char_str", "src/parsers/mathematica.rl:mathematica_string"]}
{"id": "C98", "title": "Empty files are counted as nothing and named by their name only", "statement": "For an empty file, or one that cannot be read, the language depends only on the path, the name and the names of its directory: libmagic and the regular expressions are never asked. Without a known extension or file name there is no language; with an ambiguous extension the language is the one of a fixed table (an empty .m file is Matlab, .f90 is fixed-form Fortran, .rs is Rust, .pl is none). Every parser accepts the empty text and reports nothing, so that the tool records no lines for such a file.", "quantifier": "every parser, every path and name, every answer of libmagic and pcre, every platform; every fuel above the bound", "why_tests_cant": "That something is never asked cannot be observed with one installed libmagic; a test has one name and one answer.", "anchors": ["src/detector.c:ohcount_detect_language", "src/detector.c:detect_language_magic", "src/sourcefile.c:ohcount_sourcefile_get_contents", "src/parser.c:ohcount_parse", "src/parser_macros.h:process_last_line"]}
{"id": "C99", "title": "A line feed at the end of the file does not matter", "statement": "Take a file whose last byte is no line end and no backslash, in one of 96 languages (70 of those with an account of their comments and strings, all that are counted line by line). With a line feed put after it, ohcount makes the same reports, except that the one about the last line ends one byte later; if there was none, because the last line is blank, there is one report more, of a blank line of one byte. So the kinds and the number of lines stay the same. This is refuted for other languages: the last line of a PHP file in <?php is counted as HTML when it has no line feed and as PHP when it has one, the last line of Ruby in rhtml likewise, and in Matlab, Octave, Haskell and Elm an empty comment in the last line is code when no line feed follows.", "quantifier": "all texts of the class (with the account defined for them), 70 + 26 languages", "why_tests_cant": "Tests have one or two files without final line feed per language; whether the missing line feed changes a count depends on the place in which the file ends, in any of the comments and strings of a language.", "anchors": ["src/parser_macros.h:62-260", "src/parsers/c.rl:30-177", "src/parsers/phphtml.rl:10-233", "src/parsers/rhtml.rl:10-233", "src/parsers/haskell.rl:52", "src/parsers/matlab.rl:48"]}
{"id": "C100", "title": "Indentation does not change how lines are counted", "statement": "Take two files that differ only in the spaces and tabs at the start of their lines (lines within comments and strings included), in one of 96 languages (70 of those with an account of their comments and strings, all 26 that are counted line by line). ohcount makes the same number of reports for both, in the same order, of the same languages and kinds. In particular every file without CR can be moved to the right as a whole. This is refuted for Perl (documentation starts at the start of a line), for strings over several lines in Lisp, Mathematica and Stratego, and for a C comment that is not closed, which makes one line count as two when the file is moved.", "quantifier": "all pairs of such texts (with the account defined for the first), 70 + 26 languages", "why_tests_cant": "Whether the indentation matters depends on the state in which each line starts; tests indent their lines in one way only.", "anchors": ["src/parser_macros.h:62-260", "src/parsers/c.rl:30-177", "src/parsers/perl.rl:30-155", "src/parsers/lisp.rl:30-130", "src/parsers/mathematica.rl:30-110", "src/parsers/stratego.rl:30-110"]}
{"id": "C101", "title": "Some lines are counted against the definition of their language", "statement": "Whatever precedes and follows it, and however it is indented: a line of fixed-form Fortran that begins with CALL, CONTINUE, COMMON or CLOSE( is counted as a comment, and one that begins with c, * or ! and a space is counted as code; a line of Erlang that begins with one percent sign and a space is code; a line of a batch file that begins with remove, of structured Basic that begins with remainder, or of Visual Basic that begins with RemoveItem is a comment. There is exactly this one report for the line; the reports before and after lie outside of it. Counting and entity search do not agree either: the single line `% a` of Erlang and the lines `' a` and `rem a` of classic Basic are counted as code, while the entity search reports them as a comment. The second line of a Python division that is continued as `// 2)` is counted as a comment.", "quantifier": "all files that contain such a line, with arbitrary lines before and arbitrary bytes (no vertical tab) after; concrete witnesses for the last two sentences", "why_tests_cant": "The test files contain only lines on which the simplified patterns are right.", "anchors": ["src/parsers/fortranfixed.rl:47", "src/parsers/erlang.rl:47", "src/parsers/erlang.rl:68", "src/parsers/bat.rl:47", "src/parsers/structured_basic.rl:45", "src/parsers/visual_basic.rl:47", "src/parsers/classic_basic.rl:45-70", "src/parsers/python.rl:47"]}
{"id": "C102", "title": "Where nothing carries over, the order of lines does not matter", "statement": "In the 26 languages that are counted line by line, a file made of lines that end in a line feed gets exactly one report per line, in order, and its kind depends on the contents of that line alone, for files of any length. Hence the lines may be put in any other order: the reports are the same but for order and place, so the numbers of lines of code, comment and blank lines stay. A line put in at any place adds one report of its own and changes the kind of no other. This is refuted for C, in which a comment may go on over several lines.", "quantifier": "all lists of lines without line ends and vertical tabs, all permutations of them, 26 languages", "why_tests_cant": "The permutations of the lines of a file cannot be listed; tests use one order.", "anchors": ["src/parser_macros.h:62-260", "src/parsers/makefile.rl:30-110", "src/parsers/bat.rl:30-100", "src/parsers/erlang.rl:30-110", "src/parsers/c.rl:46-64"]}
{"id": "C103", "title": "What ohcount prints about source files does not depend on their layout", "statement": "Let there be two versions of a source file under one path, with the extension of its language, that differ only in LF or CR LF as line ends, in the number of blanks where there are some, in the indentation, or (in languages counted line by line) in the order of lines, in a language in which this is without effect on the single lines (C96, C97, C100, C102). Then `ohcount -i path` prints the same for both: the same numbers of lines of code, comment and blank lines, although the places of the reports differ. If all source files below the paths of an invocation are changed in this way, be it whole directories, the output of -i and of -s is the same for both versions in every respect, the order of rows with equal counts included. This is refuted for Perl: two lines of documentation in a module, moved to the right by one space, are printed as two lines of code.", "quantifier": "all pairs of texts of the kind, all paths and trees of files, all answers of libmagic and of the file system, every spelling of the option", "why_tests_cant": "The end-to-end test scripts run on one version of each file.", "anchors": ["src/ohcount.c:main", "src/ohcount.c:individual", "src/ohcount.c:summary", "src/detector.c:ohcount_detect_language", "src/parser.c:ohcount_parse", "src/parsers/perl.rl:30-155"]}
{"id": "C104", "title": "A slash at the end of a line hides the next line in JavaScript", "statement": "A text of two lines with a token on each should be reported as two lines. In JavaScript, TypeScript, QML and ChaiScript it is not if the first line ends in a slash, as a division that is continued on the next line does: the pattern of a regular expression lets a line end stand behind the slash, and line ends inside it are not counted. For the first line `a /` and any second line that starts with `b`, ends in a slash and has no slash or backslash in between, the parser reports one line of code from the start to the end of the text. For `a /` and the comment `// b` the comment is lost as well. ActionScript, with another pattern, reports two lines.", "quantifier": "For each of the four languages and every second line of the given form, of any length, and every sufficient number of steps; the comment is shown by a witness.", "why_tests_cant": "The second line is any text: a test shows one of them. The usual tests have no division that is continued on the next line.", "anchors": ["src/parsers/javascript.rl:82", "src/parsers/chaiscript.rl:83", "src/parser_macros.h:224"]}
