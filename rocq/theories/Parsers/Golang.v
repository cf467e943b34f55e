(** Transcription of /repo/src/parsers/golang.rl: the line counting machine and the
    entity machine (written by tools/ragel/gen.py). *)
From Coq Require Import ZArith String List.
From Verif Require Import Base RagelSyntax.
From Verif.Parsers Require Import Common.
Import ListNotations.
Open Scope string_scope.
Open Scope Z_scope.
Open Scope list_scope.

(** golang.rl:33 *)
Definition a_golang_ccallback : action := mkAction 40001 [Switch [(0, Mls); (8, Mcode); ((-2), Minl "GOLANG_LANG"); ((-1), Mnl "GOLANG_LANG")]].

(** golang.rl:49-56 *)
Definition m_golang_line_comment : rx :=
  cats (Aug [Finish a_comment] (Lit (bytes "//"))) [
    Star (alts (Aug [Leave (mkAction 40501 [Entity (-2)]); Leave a_golang_ccallback] m_escaped_newline) [
      m_ws;
      Aug [Finish a_comment] (Diff m_nonnewline m_ws)])].

(** golang.rl:57-64 *)
Definition m_golang_block_comment : rx :=
  CatFin (cats (Aug [Finish a_comment] (Lit (bytes "/*"))) [
    Star (alts (Aug [Leave (mkAction 40502 [Entity (-2)]); Leave a_golang_ccallback] m_newline) [
      m_ws;
      Aug [Finish a_comment] (Diff m_nonnewline m_ws)])]) (Lit (bytes "*/")).

(** golang.rl:65-65 *)
Definition m_golang_comment : rx :=
  alts m_golang_line_comment [m_golang_block_comment].

(** golang.rl:67-76 *)
Definition m_golang_sq_str : rx :=
  cats (Aug [Finish a_code] (Lit (bytes "'"))) [
    Star (alts (Aug [Leave (mkAction 40503 [Entity (-2)]); Leave a_golang_ccallback] m_escaped_newline) [
      m_ws;
      Aug [Finish a_code] (NCls [(9, 9); (32, 32); (39, 39); (92, 92)]);
      cats (Lit (bytes "\")) [Aug [Finish a_code] m_nonnewline]]);
    Lit (bytes "'")].

(** golang.rl:77-86 *)
Definition m_golang_dq_str : rx :=
  cats (Aug [Finish a_code] (Lit (bytes """"))) [
    Star (alts (Aug [Leave (mkAction 40504 [Entity (-2)]); Leave a_golang_ccallback] m_escaped_newline) [
      m_ws;
      Aug [Finish a_code] (NCls [(9, 9); (32, 32); (34, 34); (92, 92)]);
      cats (Lit (bytes "\")) [Aug [Finish a_code] m_nonnewline]]);
    Lit (bytes """")].

(** golang.rl:87-87 *)
Definition m_golang_string : rx :=
  alts m_golang_sq_str [m_golang_dq_str].

(** golang.rl:89-95 *)
Definition i_golang_line : instance :=
  Scanner [
    (Aug [All (mkAction 40505 [Entity 0])] m_spaces, Some a_golang_ccallback);
    (m_golang_comment, None);
    (m_golang_string, None);
    (Aug [All (mkAction 40506 [Entity (-1)])] m_newline, Some a_golang_ccallback);
    (Aug [All (mkAction 40507 [Entity 8])] (NotChr r_space), Some a_golang_ccallback)].

(** golang.rl:99 *)
Definition a_golang_ecallback : action := mkAction 40002 [Report "GOLANG_LANG" ["space"; "comment"; "string"; "number"; "preproc"; "keyword"; "identifier"; "operator"; "any"]].

(** golang.rl:103-103 *)
Definition m_golang_line_comment_entity : rx :=
  cats (Lit (bytes "//")) [Star (alts m_escaped_newline [m_nonnewline])].

(** golang.rl:104-104 *)
Definition m_golang_block_comment_entity : rx :=
  CatFin (cats (Lit (bytes "/*")) [Star r_any]) (Lit (bytes "*/")).

(** golang.rl:105-105 *)
Definition m_golang_comment_entity : rx :=
  alts m_golang_line_comment_entity [m_golang_block_comment_entity].

(** golang.rl:107-107 *)
Definition m_golang_string_entity : rx :=
  alts m_sq_str_with_escapes [m_dq_str_with_escapes].

(** golang.rl:109-109 *)
Definition m_golang_number_entity : rx :=
  alts m_float [m_integer].

(** golang.rl:111-114 *)
Definition m_golang_preprogolang_word : rx :=
  alts (Lit (bytes "define")) [
    Lit (bytes "elif");
    Lit (bytes "else");
    Lit (bytes "endif");
    Lit (bytes "error");
    Lit (bytes "if");
    Lit (bytes "ifdef");
    Lit (bytes "ifndef");
    Lit (bytes "import");
    Lit (bytes "include");
    Lit (bytes "line");
    Lit (bytes "pragma");
    Lit (bytes "undef");
    Lit (bytes "using");
    Lit (bytes "warning")].

(** golang.rl:117-119 *)
Definition m_golang_preprogolang_entity : rx :=
  cats (Lit (bytes "#")) [
    Star r_space;
    Opt (cats m_golang_block_comment_entity [Star r_space]);
    m_golang_preprogolang_word;
    Star (alts m_escaped_newline [m_nonnewline])].

(** golang.rl:121-121 *)
Definition m_golang_identifier_entity : rx :=
  cats (alts r_alpha [Lit (bytes "_")]) [Star (alts r_alnum [Lit (bytes "_")])].

(** golang.rl:123-135 *)
Definition m_golang_keyword_entity : rx :=
  alts (Lit (bytes "and")) [
    Lit (bytes "and_eq");
    Lit (bytes "asm");
    Lit (bytes "auto");
    Lit (bytes "bitand");
    Lit (bytes "bitor");
    Lit (bytes "bool");
    Lit (bytes "break");
    Lit (bytes "case");
    Lit (bytes "catch");
    Lit (bytes "char");
    Lit (bytes "class");
    Lit (bytes "compl");
    Lit (bytes "const");
    Lit (bytes "const_cast");
    Lit (bytes "continue");
    Lit (bytes "default");
    Lit (bytes "delete");
    Lit (bytes "do");
    Lit (bytes "double");
    Lit (bytes "dynamigolang_cast");
    Lit (bytes "else");
    Lit (bytes "enum");
    Lit (bytes "explicit");
    Lit (bytes "export");
    Lit (bytes "extern");
    Lit (bytes "false");
    Lit (bytes "float");
    Lit (bytes "for");
    Lit (bytes "friend");
    Lit (bytes "goto");
    Lit (bytes "if");
    Lit (bytes "inline");
    Lit (bytes "int");
    Lit (bytes "long");
    Lit (bytes "mutable");
    Lit (bytes "namespace");
    Lit (bytes "new");
    Lit (bytes "not");
    Lit (bytes "not_eq");
    Lit (bytes "operator");
    Lit (bytes "or");
    Lit (bytes "or_eq");
    Lit (bytes "private");
    Lit (bytes "protected");
    Lit (bytes "public");
    Lit (bytes "register");
    Lit (bytes "reinterpret_cast");
    Lit (bytes "return");
    Lit (bytes "short");
    Lit (bytes "signed");
    Lit (bytes "sizeof");
    Lit (bytes "static");
    Lit (bytes "statigolang_cast");
    Lit (bytes "struct");
    Lit (bytes "switch");
    Lit (bytes "template");
    Lit (bytes "this");
    Lit (bytes "throw");
    Lit (bytes "true");
    Lit (bytes "try");
    Lit (bytes "typedef");
    Lit (bytes "typeid");
    Lit (bytes "typename");
    Lit (bytes "union");
    Lit (bytes "unsigned");
    Lit (bytes "using");
    Lit (bytes "virtual");
    Lit (bytes "void");
    Lit (bytes "volatile");
    Lit (bytes "wchar_t");
    Lit (bytes "while");
    Lit (bytes "xor");
    Lit (bytes "xor_eq")].

(** golang.rl:137-137 *)
Definition m_golang_operator_entity : rx :=
  Cls [(33, 33); (37, 38); (40, 47); (58, 63); (91, 91); (93, 94); (123, 126)].

(** golang.rl:139-149 *)
Definition i_golang_entity : instance :=
  Scanner [
    (Aug [All (mkAction 40508 [Entity 0])] (Plus r_space), Some a_golang_ecallback);
    (Aug [All (mkAction 40509 [Entity 1])] m_golang_comment_entity, Some a_golang_ecallback);
    (Aug [All (mkAction 40510 [Entity 2])] m_golang_string_entity, Some a_golang_ecallback);
    (Aug [All (mkAction 40511 [Entity 3])] m_golang_number_entity, Some a_golang_ecallback);
    (Aug [All (mkAction 40512 [Entity 4])] m_golang_preprogolang_entity, Some a_golang_ecallback);
    (Aug [All (mkAction 40513 [Entity 6])] m_golang_identifier_entity, Some a_golang_ecallback);
    (Aug [All (mkAction 40514 [Entity 5])] m_golang_keyword_entity, Some a_golang_ecallback);
    (Aug [All (mkAction 40515 [Entity 7])] m_golang_operator_entity, Some a_golang_ecallback);
    (Aug [All (mkAction 40516 [Entity 8])] (NotChr (alts r_space [r_digit])), Some a_golang_ecallback)].

Definition the_parser : parser := mkParser [i_golang_line] "GOLANG_LANG".
Definition the_entities : parser := mkParser [i_golang_entity] "GOLANG_LANG".
