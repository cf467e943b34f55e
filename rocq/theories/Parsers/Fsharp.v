(** Transcription of /repo/src/parsers/fsharp.rl: the line counting machine and the
    entity machine (written by tools/ragel/gen.py). *)
From Coq Require Import ZArith String List.
From Verif Require Import Base RagelSyntax.
From Verif.Parsers Require Import Common.
Import ListNotations.
Open Scope string_scope.
Open Scope Z_scope.
Open Scope list_scope.

(** fsharp.rl:34 *)
Definition a_fsharp_ccallback : action := mkAction 38001 [Switch [(0, Mls); (8, Mcode); ((-2), Minl "FSHARP_LANG"); ((-1), Mnl "FSHARP_LANG")]].

(** fsharp.rl:50-57 *)
Definition m_fsharp_line_comment : rx :=
  cats (Aug [Finish a_comment] (Lit (bytes "//"))) [
    Star (alts (Aug [Leave (mkAction 38501 [Entity (-2)]); Leave a_fsharp_ccallback] m_escaped_newline) [
      m_ws;
      Aug [Finish a_comment] (Diff m_nonnewline m_ws)])].

(** fsharp.rl:58-65 *)
Definition m_fsharp_block_comment : rx :=
  CatFin (cats (Aug [Finish a_comment] (Lit (bytes "(*"))) [
    Star (alts (Aug [Leave (mkAction 38502 [Entity (-2)]); Leave a_fsharp_ccallback] m_newline) [
      m_ws;
      Aug [Finish a_comment] (Diff m_nonnewline m_ws)])]) (Lit (bytes "*)")).

(** fsharp.rl:66-66 *)
Definition m_fsharp_comment : rx :=
  alts m_fsharp_line_comment [m_fsharp_block_comment].

(** fsharp.rl:68-77 *)
Definition m_fsharp_sq_str : rx :=
  cats (Aug [Finish a_code] (Lit (bytes "'"))) [
    Star (alts (Aug [Leave (mkAction 38503 [Entity (-2)]); Leave a_fsharp_ccallback] m_escaped_newline) [
      m_ws;
      Aug [Finish a_code] (NCls [(9, 9); (32, 32); (39, 39); (92, 92)]);
      cats (Lit (bytes "\")) [Aug [Finish a_code] m_nonnewline]]);
    Lit (bytes "'")].

(** fsharp.rl:78-87 *)
Definition m_fsharp_dq_str : rx :=
  cats (Aug [Finish a_code] (Lit (bytes """"))) [
    Star (alts (Aug [Leave (mkAction 38504 [Entity (-2)]); Leave a_fsharp_ccallback] m_escaped_newline) [
      m_ws;
      Aug [Finish a_code] (NCls [(9, 9); (32, 32); (34, 34); (92, 92)]);
      cats (Lit (bytes "\")) [Aug [Finish a_code] m_nonnewline]]);
    Lit (bytes """")].

(** fsharp.rl:88-88 *)
Definition m_fsharp_string : rx :=
  alts m_fsharp_sq_str [m_fsharp_dq_str].

(** fsharp.rl:90-96 *)
Definition i_fsharp_line : instance :=
  Scanner [
    (Aug [All (mkAction 38505 [Entity 0])] m_spaces, Some a_fsharp_ccallback);
    (m_fsharp_comment, None);
    (m_fsharp_string, None);
    (Aug [All (mkAction 38506 [Entity (-1)])] m_newline, Some a_fsharp_ccallback);
    (Aug [All (mkAction 38507 [Entity 8])] (NotChr r_space), Some a_fsharp_ccallback)].

(** fsharp.rl:100 *)
Definition a_fsharp_ecallback : action := mkAction 38002 [Report "FSHARP_LANG" ["space"; "comment"; "string"; "number"; "preproc"; "keyword"; "identifier"; "operator"; "any"]].

(** fsharp.rl:104-104 *)
Definition m_fsharp_line_comment_entity : rx :=
  cats (Lit (bytes "//")) [Star (alts m_escaped_newline [m_nonnewline])].

(** fsharp.rl:105-105 *)
Definition m_fsharp_block_comment_entity : rx :=
  CatFin (cats (Lit (bytes "(*")) [Star r_any]) (Lit (bytes "*)")).

(** fsharp.rl:106-106 *)
Definition m_fsharp_comment_entity : rx :=
  alts m_fsharp_line_comment_entity [m_fsharp_block_comment_entity].

(** fsharp.rl:108-108 *)
Definition m_fsharp_string_entity : rx :=
  alts m_sq_str_with_escapes [m_dq_str_with_escapes].

(** fsharp.rl:110-110 *)
Definition m_fsharp_number_entity : rx :=
  alts m_float [m_integer].

(** fsharp.rl:112-115 *)
Definition m_fsharp_preproc_word : rx :=
  alts (Lit (bytes "define")) [
    Lit (bytes "elif");
    Lit (bytes "else");
    Lit (bytes "endif");
    Lit (bytes "error");
    Lit (bytes "if");
    Lit (bytes "ifdef");
    Lit (bytes "ifndef");
    Lit (bytes "import");
    Lit (bytes "include");
    Lit (bytes "line");
    Lit (bytes "pragma");
    Lit (bytes "undef");
    Lit (bytes "using");
    Lit (bytes "warning")].

(** fsharp.rl:118-120 *)
Definition m_fsharp_preproc_entity : rx :=
  cats (Lit (bytes "#")) [
    Star r_space;
    Opt (cats m_fsharp_block_comment_entity [Star r_space]);
    m_fsharp_preproc_word;
    Star (alts m_escaped_newline [m_nonnewline])].

(** fsharp.rl:122-122 *)
Definition m_fsharp_identifier_entity : rx :=
  cats (alts r_alpha [Lit (bytes "_")]) [Star (alts r_alnum [Lit (bytes "_")])].

(** fsharp.rl:124-136 *)
Definition m_fsharp_keyword_entity : rx :=
  alts (Lit (bytes "and")) [
    Lit (bytes "and_eq");
    Lit (bytes "asm");
    Lit (bytes "auto");
    Lit (bytes "bitand");
    Lit (bytes "bitor");
    Lit (bytes "bool");
    Lit (bytes "break");
    Lit (bytes "case");
    Lit (bytes "catch");
    Lit (bytes "char");
    Lit (bytes "class");
    Lit (bytes "compl");
    Lit (bytes "const");
    Lit (bytes "const_cast");
    Lit (bytes "continue");
    Lit (bytes "default");
    Lit (bytes "delete");
    Lit (bytes "do");
    Lit (bytes "double");
    Lit (bytes "dynamic_cast");
    Lit (bytes "else");
    Lit (bytes "enum");
    Lit (bytes "explicit");
    Lit (bytes "export");
    Lit (bytes "extern");
    Lit (bytes "false");
    Lit (bytes "float");
    Lit (bytes "for");
    Lit (bytes "friend");
    Lit (bytes "goto");
    Lit (bytes "if");
    Lit (bytes "inline");
    Lit (bytes "int");
    Lit (bytes "long");
    Lit (bytes "mutable");
    Lit (bytes "namespace");
    Lit (bytes "new");
    Lit (bytes "not");
    Lit (bytes "not_eq");
    Lit (bytes "operator");
    Lit (bytes "or");
    Lit (bytes "or_eq");
    Lit (bytes "private");
    Lit (bytes "protected");
    Lit (bytes "public");
    Lit (bytes "register");
    Lit (bytes "reinterpret_cast");
    Lit (bytes "return");
    Lit (bytes "short");
    Lit (bytes "signed");
    Lit (bytes "sizeof");
    Lit (bytes "static");
    Lit (bytes "static_cast");
    Lit (bytes "struct");
    Lit (bytes "switch");
    Lit (bytes "template");
    Lit (bytes "this");
    Lit (bytes "throw");
    Lit (bytes "true");
    Lit (bytes "try");
    Lit (bytes "typedef");
    Lit (bytes "typeid");
    Lit (bytes "typename");
    Lit (bytes "union");
    Lit (bytes "unsigned");
    Lit (bytes "using");
    Lit (bytes "virtual");
    Lit (bytes "void");
    Lit (bytes "volatile");
    Lit (bytes "wchar_t");
    Lit (bytes "while");
    Lit (bytes "xor");
    Lit (bytes "xor_eq")].

(** fsharp.rl:138-138 *)
Definition m_fsharp_operator_entity : rx :=
  Cls [(33, 33); (37, 38); (40, 47); (58, 63); (91, 91); (93, 94); (123, 126)].

(** fsharp.rl:140-150 *)
Definition i_fsharp_entity : instance :=
  Scanner [
    (Aug [All (mkAction 38508 [Entity 0])] (Plus r_space), Some a_fsharp_ecallback);
    (Aug [All (mkAction 38509 [Entity 1])] m_fsharp_comment_entity, Some a_fsharp_ecallback);
    (Aug [All (mkAction 38510 [Entity 2])] m_fsharp_string_entity, Some a_fsharp_ecallback);
    (Aug [All (mkAction 38511 [Entity 3])] m_fsharp_number_entity, Some a_fsharp_ecallback);
    (Aug [All (mkAction 38512 [Entity 4])] m_fsharp_preproc_entity, Some a_fsharp_ecallback);
    (Aug [All (mkAction 38513 [Entity 6])] m_fsharp_identifier_entity, Some a_fsharp_ecallback);
    (Aug [All (mkAction 38514 [Entity 5])] m_fsharp_keyword_entity, Some a_fsharp_ecallback);
    (Aug [All (mkAction 38515 [Entity 7])] m_fsharp_operator_entity, Some a_fsharp_ecallback);
    (Aug [All (mkAction 38516 [Entity 8])] (NotChr (alts r_space [r_digit])), Some a_fsharp_ecallback)].

Definition the_parser : parser := mkParser [i_fsharp_line] "FSHARP_LANG".
Definition the_entities : parser := mkParser [i_fsharp_entity] "FSHARP_LANG".
