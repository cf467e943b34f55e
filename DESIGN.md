# Formal model of ohcount in Rocq

The system under study is `blackducksoftware/ohcount` (C library + command line
tool in `/repo/src`), a source line counter.  It detects the language of a file,
scans it with a Ragel generated line scanner, stores per-language code/comment
text and counters, sums them over files, and diffs two revisions of a file.

The properties are in `properties.jsonl` (C01, C02, ...); this file says how
each is modelled and proved, and what is trusted.

## 1. Conventions

* `theories/*Model.v` contain only executable definitions transcribed from the
  C/Ragel sources; each definition cites file and lines.  `*Spec.v` contain the
  specifications (independent of the model helpers), `*Proofs.v` lemmas,
  `Properties*.v` only the property theorems, their `Print Assumptions`, and the
  `Example`s showing that hypotheses are satisfiable.
* A byte is a `Z` (0..255), a buffer a `list Z`.  C strings used as names are
  Rocq `string`s.
* C `int` arithmetic is done in `Z` with explicit overflow checks where a
  property is about overflow; undefined behaviour (out-of-bounds access, read
  of an uninitialised cell, signed overflow, negative copy length) is the
  distinct outcome `Ub`, running out of fuel is the distinct outcome
  `OutOfFuel`; neither is ever identified with a normal result.
* When the code violates a property the violation is proved on a witness (or on
  a whole family) in a theorem whose name ends in `_refuted`, next to the
  strongest positive statement that holds.

## 2. Plan per property

| Id | Model | Proof |
|----|-------|-------|
| C01-C07 | `LocModel.v`: loc.c, lists of records with checked int addition | induction over histories; refinement to sum-by-language specification; counterexamples for LocDeltaList; self-append as an explicit loop over the list under modification |
| C08-C14 | `DiffModel.v`: diff.c, arrays as partial maps with bounds and initialisation state, one Gallina function per C function | loop invariants for each phase; LCS specification `DiffSpec.v`; optimality of the candidate ("k-candidate") algorithm; witnesses for the sentinel failure and for collisions |
| C15-C17 | `ParsedModel.v`: parsed_language.c, parser_callback, get_loc_list | invariant on buffer cursor; induction over callback sequences |
| C18, C19, C44 | `RagelSyntax/Build/Run.v`: Ragel's regular expression operators, its construction of an automaton (priorities, entering/leaving/embedded actions, scanners with longest match), and the generated driver loop; `Parsers/*.v`: the machines of all 113 parser files; `ParserTable.v`: 123 languages | abstract interpreter over the compiled automata (`ScanCheck.v`) proved sound once (`ScanProofs.v`), run by `vm_compute` for each language (`ScanCerts*.v`) |
| C20-C23 | same, with an independent account of lines (`LineSpec.v`) | product of scanner and reference lexer, checked by a sound abstract exploration (`LineCheck.v`, `LineProofs.v`, `LineCerts.v`); witnesses for the refutations |
| C49-C54, C23 | same, with an independent account of comments and strings (`LexSpec.v`, the languages in `LexTable.v`) | product of the scanner with the account, where the scanner may be ahead of it by known bytes and a comment may be on trial (it counts only if it is closed); boolean checker `LexCheck.v`, soundness `LexFacts.v`, `LexProofs.v`, bytes that are not distinguished `LexBytes.v`, certificates `LexCerts.v`; consequences `LexLines.v`, `LexHeads.v` |
| C94 | the scanner of Vim run on a prefix | a run that stays inside a prefix does not depend on the rest (`StopProofs.v`); `PropertiesStop.v` |
| C95 | accounts of LexSpec.v and LineSpec.v | the pieces of a text that ends with a line feed are the same with any continuation (`LexConcat.v`); `PropertiesConcat.v` |
| C96 | accounts of LexSpec.v and LineSpec.v | texts that are alike have the same pieces (`LexEnds.v`); `PropertiesEnds.v` |
| C97 | accounts of LexSpec.v and LineSpec.v | texts that differ in blanks have the same pieces, a run of blanks moves on without effect (`LexSpaces.v`); `PropertiesSpaces.v` |
| C98 | DetectorModel.v, ParserTable.v, ToolModel.v | the oracles occur only under contents; reports lie inside the file (C19); `PropertiesEmpty.v` |
| C99 | accounts of LexSpec.v and LineSpec.v | no piece but the last changes when a line feed is put at the end (`LexFinal.v`); `PropertiesFinal.v` |
| C100 | accounts of LexSpec.v and LineSpec.v | pieces stay alike when the blanks at line starts change (`LexIndent.v`); `PropertiesIndent.v` |
| C101 | account of LineSpec.v | the table `misread` against the patterns of the styles; `PropertiesMisread.v` |
| C102 | account of LineSpec.v | the reports of a list of lines are a map over it; `PropertiesOrder.v` |
| C103 | accounts of LexSpec.v and LineSpec.v, ToolSpec.v | C57 for both versions, and the counts depend on the kinds of the reports only; `PropertiesLayout.v` |
| C104 | StopProofs.v | refuted; the scanner stays in one state over the second line (`passes_run`), whatever it is; `PropertiesSlash.v` |
| C55 | same, with the callback of `ParsedModel.v` | abstract execution that knows, at each report, whether the byte in front of or behind its end is not a blank (`TailCheck.v`, soundness `TailProofs.v`, certificates `ScanCerts*.v`) |
| C56 | same | symbolic run of the compiled C scanner on a family of files (`OpenComments.v`), induction over the lines |
| C24 | macros of parser_macros.h inside `RagelRun.v` | invariant over all action sequences |
| C25, C26 | `PathModel.v`: constructor's pointer loops over an array with bounds | loop invariants |
| C27, C28 | `SourceFileModel.v`: state machine over API calls, with disk as an arbitrary time-varying function | invariants over `fold_left` of operations |
| C29 | `Tables.v`: gperf tables transcribed in full by `tools/tables.py` | finite computation lifted to all keys by membership |
| C30-C33 | `DetectorModel.v`: detector.c in full, libmagic and PCRE as oracles (arguments), `platform` record for what is undefined in C but harmless on usual machines | one lemma file per group of disambiguators against `DetectorSpec.v`; Fortran and .m exactly, against the inductive `DisambSpec2.v` (`DisambProofs8.v`, `DisambProofs9.v`); fuel bounds; case analysis over the tables |
| C34-C37 | `LicenseTable.v` (transcribed by `tools/licenses.py`), `LicenseModel.v`: licenses.c; the regular expression engine is a parameter `exec` with no assumption but `engine_ok` (matches lie within the text) | invariants of the table loop (the intervals that remain are the maximal ones); loop invariant of the normalisation against `one_line` |
| C45-C48 | `RegexModel.v`: the part of PCRE's syntax and matching that licenses.c and detector.c use, as a Gallina parser and backtracking matcher | the parser against an inductive grammar (`RegexSyntax.v`, `RegexProofs3.v`); soundness and completeness of the matcher against a relational semantics (`RegexSpec.v`), preference order against a list semantics; then instances for the tables and the detector |
| C38, C39 | `ReportModel.v`: selection sorts and summary of ohcount.c | permutation / sortedness invariants |
| C40 | `DirModel.v`: inductive file-system tree | structural induction against a reachability relation |
| C57-C62 | `ToolModel.v`: `main` and the commands of ohcount.c on top of the models of their parts; output as a sequence of items | composition of C25, C31, C21, C49, C55, C17, C39, C40, C36 against `ToolSpec.v` (files reachable, accounts of their texts) |
| C63-C67 | the entity machines of all parsers, `ohcount_parse_entities` in `ParserTable.v` | abstract check of the compiled machines (`EntityCheck.v`), soundness `EntityProofs.v`, certificates `EntityCert.v`, against `EntitySpec.v`; C67 by a check that no transition reports |
| C68, C69 | `parser_callback`, `summary`, `individual`, `licenses`, `raw_entities` in `ToolModel.v` | `RecordSpec.v` says which reports find room; `RecordProofs.v` shows that recording all reports and recording those gives the same; then C16, C36, C39, C44 and C63 |
| C70-C72 | `MemModel.v`: the blocks that sourcefile.c, loc.c, parsed_language.c, licenses.c (list), diff.c, detector.c and the scanners' queue allocate, use and free; a block is never reused, so each use after free is a fault | a small separation logic (`MemLogic.v`), rules for lists, files, parsing (`MemLists.v`, `MemFiles.v`, `MemParse.v`), client states (`MemClient.v`, `MemCalls.v`, `MemRun.v`) against `MemSpec.v`, which says which sequences of calls are in order without mentioning blocks |
| C73 | `ProcessModel.v`: the variables that survive from call to call, calls in sequence | simulation between runs that differ in those variables (`ProcessProofs.v`) |
| C74-C77 | `PrintModel.v`: the characters of every printf of `ohcount.c`, with single precision percentages | `PrintSpec.v` says what words and numerals are; error bounds of rounding, reading back (`PrintProofs.v`) |
| C78-C87 | `GestaltModel.v`: the inference of platforms and tools in Ruby (rule objects in a store, the engine, the pom.xml and csproj listeners); `GestaltTable.v`: the 97 definitions (`tools/gestalt.py`) | `GestaltSpec.v` says when a definition holds and what a solution is; fixpoint with settled negation (`GestaltProofs*.v`), store (`GestaltStore.v`) |
| C91 | `GestaltOutModel.v`: the sorted list that `ruby/gestalt.rb` prints; sorting is a relation | `<=>` is a total order; lines are read back like the tables of C73-C76 |
| C92 | `hash` in `DiffModel.v` | `PropertiesHash.v` defines the weighted sum; 257 divides 65535 but no difference of bytes |
| C93 | `MemTool.v`: the calls of each command; `walk`, `sort_loop` in `MemModel.v` | `MemSort.v`: an exchange keeps the blocks; then C70 and C71 |
| C90 | `loc_is_equal`, `delta_is_equal`, `delta_is_changed` in `LocModel.v` | case analysis |
| C88, C89 | `BindingModel.v`: which objects of the Ruby classes own C structures, what each method reaches, the collector as a schedule | `BindingSpec.v` says when a program holds on to what it uses; invariant over all schedules, and the eager collector for the other direction (`BindingProofs.v`) |
| C41-C43 | `FileDiffModel.v` | composition of C08-C11 and C15 |

## 3. Notes on the models

* **Ragel.** `RagelBuild.v` implements the operators of the Ragel guide on
  nondeterministic automata with priorities, determinised without minimisation
  (which does not change the language or the actions taken).  The engine was
  validated outside the proofs by extracting it and running it on the expected
  counts of the repository's test data.  Both the line counting
  and the entity machines are modelled.  The counters are local variables of the
  parse functions and start at 0; the global variables that survive from parse to
  parse are in `ProcessModel.v`, and C73 proves that they do not matter.
* **Certificates.** `ScanCheck`/`LineCheck`/`LexCheck` are boolean checkers with soundness
  proofs; a certificate is only a hint for them (a set of abstract states) and
  is checked, not trusted.
* **Lexical accounts.** `LexTable.v` says for each of 88 languages which comments and
  strings it has, as the parser files have them (not as the languages' manuals do; C54
  lists where this is not what one expects).  A text is accepted if its comments and
  strings are closed as the account demands; nothing is claimed about other texts but
  C18, C19, C44 (and C94 about Vim).  The account of a line may depend on whether code was
  seen on it (Vim) and on whether a byte is the first of a line (Perl, whose
  documentation blocks are not accepted).
* **Platform.** `slack` = number of bytes after a local array that may be
  written without harm, `before_line`/`before_path` = the byte before an array,
  `loop_ends` = outcome of a comparison of pointers into different objects.
  `strict` is the C standard.  Positive theorems say for which platforms they
  hold.  File diff uses the same `slack` idea for its buffers.
* **Regular expressions.** C34-C37 hold for any engine whose matches lie within
  the text; C30-C33 for any engine at all.  C45-C48 use the model of PCRE in
  `RegexModel.v`: C locale, no UTF, newline LF, release 8.34 or later.  The
  match limit of the library, captures and the leaks of the detector's and the
  licence buffers are not modelled.  The licence names that C47 quantifies over
  are a list in `LicenseSpec.v`, written down from the names of the licences.
* **Oracles.** libmagic's answer, PCRE matches (see above), the external diff program, the
  contents of files and directories over time, the hash function of diff.c where
  a theorem needs no property of it; in the source file model also the detector,
  the parsers and the licence detector.
* **Blocks.** `MemModel.v` abstracts from bytes and numbers: what depends on them
  (does a file open, what does a scanner report, is a total zero) is a stream of
  answers over which the theorems quantify.  That includes answers which no file
  gives, so the theorems say slightly more than needed.  The refutations that
  depend on answers (C71_memory_lost, C71_queue_left, C72_parsing_frees) give
  one stream each; that a real file gives this very stream is argued in their
  comments, not proved.
* **Printing.** `PrintModel.v` writes out each format of `ohcount.c`.  Single precision
  arithmetic is exact fractions rounded to 24 binary digits, nearest even, after each
  operation (no excess precision); printf rounds the exact value, nearest even, as glibc
  does.  The percentages were compared, outside the proofs, with those of the same C
  expression compiled by gcc for 413 pairs of counts; the help text with the source by a
  script.  Negative numbers occur nowhere in what is printed.
* **Ruby.** `GestaltModel.v` takes Regexp#match, String#scan and the events of
  REXML's stream parser as functions over which all theorems quantify; expressions are their
  source text.  Rule objects live in a store, because clones share arrays with their
  originals; exceptions are outcomes.  A share of the code is an exact fraction instead of a
  double.  A definition's block runs once, when the table is loaded.
* **SWIG.** `BindingModel.v` takes SWIG by its manual: constructors return owning objects,
  functions and fields return objects that own nothing and keep nothing alive, `char *`
  results are copied.  Programs are straight lines over variables; a whole SourceFile or list
  is one thing that is there or not (its inside is C70-C72).  Which calls read the filenames
  depends on the file and is a parameter of the operation.

## 4. Not modelled

* `libmagic`, `fopen`/`fread`, `readdir`, `popen` are oracles.
* Memory exhaustion (`malloc` returning NULL).  `free` discipline is modelled
  (C70-C72, C93) for the library's functions that are listed as `call` in
  `MemModel.v` and for `ohcount.c`'s loops over lists; the buffers of the regular
  expressions are not.  That the commands visit the files of their list in order is
  part of `tool_calls`, not derived from its pointers.
* gperf's generated perfect hash is modelled as exact key lookup (its contract).
* The Ragel compiler is modelled by its documented semantics, not by its output.
* The code that SWIG generates (only the ownership of objects is, C88, C89) and `python/`; of
  the Ruby code everything but `ohcount.rb` and `ruby/gestalt` (without `gestalt_facts.rb` and `xml_keyword_rule.rb`, which nothing uses, and
  without what is printed about unknown languages).

## 5. Trusted base

The Coq 8.16.1 kernel (with `vm_compute`), the transcription described above,
and the oracle interfaces.  `Print Assumptions` of every property theorem is in
`Properties*.v`; the answer is "Closed under the global context" for all of
them.  `coqchk` additionally lists constants `Coq.ssr.ssrunder.Under_rel.*` of the
standard library, which are loaded with `lia` but not used by any theorem.
