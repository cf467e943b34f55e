(** Transcription of /repo/src/parsers/glsl.rl: the line counting machine and the
    entity machine (written by tools/ragel/gen.py). *)
From Coq Require Import ZArith String List.
From Verif Require Import Base RagelSyntax.
From Verif.Parsers Require Import Common.
Import ListNotations.
Open Scope string_scope.
Open Scope Z_scope.
Open Scope list_scope.

(** glsl.rl:35 *)
Definition a_glsl_ccallback : action := mkAction 39001 [Switch [(0, Mls); (8, Mcode); ((-2), Minl "GLSL_LANG"); ((-1), Mnl "GLSL_LANG")]].

(** glsl.rl:51-58 *)
Definition m_glsl_line_comment : rx :=
  cats (Aug [Finish a_comment] (Lit (bytes "//"))) [
    Star (alts (Aug [Leave (mkAction 39501 [Entity (-2)]); Leave a_glsl_ccallback] m_escaped_newline) [
      m_ws;
      Aug [Finish a_comment] (Diff m_nonnewline m_ws)])].

(** glsl.rl:59-66 *)
Definition m_glsl_block_comment : rx :=
  CatFin (cats (Aug [Finish a_comment] (Lit (bytes "/*"))) [
    Star (alts (Aug [Leave (mkAction 39502 [Entity (-2)]); Leave a_glsl_ccallback] m_newline) [
      m_ws;
      Aug [Finish a_comment] (Diff m_nonnewline m_ws)])]) (Lit (bytes "*/")).

(** glsl.rl:67-67 *)
Definition m_glsl_comment : rx :=
  alts m_glsl_line_comment [m_glsl_block_comment].

(** glsl.rl:69-78 *)
Definition m_glsl_sq_str : rx :=
  cats (Aug [Finish a_code] (Lit (bytes "'"))) [
    Star (alts (Aug [Leave (mkAction 39503 [Entity (-2)]); Leave a_glsl_ccallback] m_escaped_newline) [
      m_ws;
      Aug [Finish a_code] (NCls [(9, 9); (32, 32); (39, 39); (92, 92)]);
      cats (Lit (bytes "\")) [Aug [Finish a_code] m_nonnewline]]);
    Lit (bytes "'")].

(** glsl.rl:79-88 *)
Definition m_glsl_dq_str : rx :=
  cats (Aug [Finish a_code] (Lit (bytes """"))) [
    Star (alts (Aug [Leave (mkAction 39504 [Entity (-2)]); Leave a_glsl_ccallback] m_escaped_newline) [
      m_ws;
      Aug [Finish a_code] (NCls [(9, 9); (32, 32); (34, 34); (92, 92)]);
      cats (Lit (bytes "\")) [Aug [Finish a_code] m_nonnewline]]);
    Lit (bytes """")].

(** glsl.rl:89-89 *)
Definition m_glsl_string : rx :=
  alts m_glsl_sq_str [m_glsl_dq_str].

(** glsl.rl:91-97 *)
Definition i_glsl_line : instance :=
  Scanner [
    (Aug [All (mkAction 39505 [Entity 0])] m_spaces, Some a_glsl_ccallback);
    (m_glsl_comment, None);
    (m_glsl_string, None);
    (Aug [All (mkAction 39506 [Entity (-1)])] m_newline, Some a_glsl_ccallback);
    (Aug [All (mkAction 39507 [Entity 8])] (NotChr r_space), Some a_glsl_ccallback)].

(** glsl.rl:101 *)
Definition a_glsl_ecallback : action := mkAction 39002 [Report "GLSL_LANG" ["space"; "comment"; "string"; "number"; "preproc"; "keyword"; "identifier"; "operator"; "any"]].

(** glsl.rl:105-105 *)
Definition m_glsl_line_comment_entity : rx :=
  cats (Lit (bytes "//")) [Star (alts m_escaped_newline [m_nonnewline])].

(** glsl.rl:106-106 *)
Definition m_glsl_block_comment_entity : rx :=
  CatFin (cats (Lit (bytes "/*")) [Star r_any]) (Lit (bytes "*/")).

(** glsl.rl:107-107 *)
Definition m_glsl_comment_entity : rx :=
  alts m_glsl_line_comment_entity [m_glsl_block_comment_entity].

(** glsl.rl:109-109 *)
Definition m_glsl_string_entity : rx :=
  alts m_sq_str_with_escapes [m_dq_str_with_escapes].

(** glsl.rl:111-111 *)
Definition m_glsl_number_entity : rx :=
  alts m_float [m_integer].

(** glsl.rl:113-119 *)
Definition m_glsl_preproc_word : rx :=
  alts (Lit (bytes "define")) [
    Lit (bytes "undef");
    Lit (bytes "if");
    Lit (bytes "ifdef");
    Lit (bytes "ifndef");
    Lit (bytes "else");
    Lit (bytes "elif");
    Lit (bytes "endif");
    Lit (bytes "pragma");
    Lit (bytes "error");
    Lit (bytes "extension");
    Lit (bytes "version");
    Lit (bytes "line")].

(** glsl.rl:122-124 *)
Definition m_glsl_preproc_entity : rx :=
  cats (Lit (bytes "#")) [
    Star r_space;
    Opt (cats m_glsl_block_comment_entity [Star r_space]);
    m_glsl_preproc_word;
    Star (alts m_escaped_newline [m_nonnewline])].

(** glsl.rl:126-126 *)
Definition m_glsl_identifier_entity : rx :=
  cats (alts r_alpha [Lit (bytes "_")]) [Star (alts r_alnum [Lit (bytes "_")])].

(** glsl.rl:128-137 *)
Definition m_glsl_keyword_entity : rx :=
  alts (Lit (bytes "attribute")) [
    Lit (bytes "const");
    Lit (bytes "uniform");
    Lit (bytes "varying");
    Lit (bytes "centroid");
    Lit (bytes "break");
    Lit (bytes "continue");
    Lit (bytes "do");
    Lit (bytes "for");
    Lit (bytes "while");
    Lit (bytes "if");
    Lit (bytes "else");
    Lit (bytes "in");
    Lit (bytes "out");
    Lit (bytes "inout");
    Lit (bytes "float");
    Lit (bytes "int");
    Lit (bytes "void");
    Lit (bytes "bool");
    Lit (bytes "true");
    Lit (bytes "false");
    Lit (bytes "invariant");
    Lit (bytes "discard");
    Lit (bytes "return");
    Lit (bytes "mat2");
    Lit (bytes "mat3");
    Lit (bytes "mat4");
    Lit (bytes "mat2x2");
    Lit (bytes "mat2x3");
    Lit (bytes "mat2x4");
    Lit (bytes "mat3x2");
    Lit (bytes "mat3x3");
    Lit (bytes "mat3x4");
    Lit (bytes "mat4x2");
    Lit (bytes "mat4x3");
    Lit (bytes "mat4x4");
    Lit (bytes "vec2");
    Lit (bytes "vec3");
    Lit (bytes "vec4");
    Lit (bytes "ivec2");
    Lit (bytes "ivec3");
    Lit (bytes "ivec4");
    Lit (bytes "bvec2");
    Lit (bytes "bvec3");
    Lit (bytes "bvec4");
    Lit (bytes "sampler1D");
    Lit (bytes "sampler2D");
    Lit (bytes "sampler3D");
    Lit (bytes "samplerCube");
    Lit (bytes "sampler1DShadow");
    Lit (bytes "sampler2DShadow");
    Lit (bytes "struct")].

(** glsl.rl:140-140 *)
Definition m_glsl_operator_entity : rx :=
  Cls [(33, 33); (37, 38); (40, 47); (58, 63); (91, 91); (93, 94); (123, 126)].

(** glsl.rl:142-152 *)
Definition i_glsl_entity : instance :=
  Scanner [
    (Aug [All (mkAction 39508 [Entity 0])] (Plus r_space), Some a_glsl_ecallback);
    (Aug [All (mkAction 39509 [Entity 1])] m_glsl_comment_entity, Some a_glsl_ecallback);
    (Aug [All (mkAction 39510 [Entity 2])] m_glsl_string_entity, Some a_glsl_ecallback);
    (Aug [All (mkAction 39511 [Entity 3])] m_glsl_number_entity, Some a_glsl_ecallback);
    (Aug [All (mkAction 39512 [Entity 4])] m_glsl_preproc_entity, Some a_glsl_ecallback);
    (Aug [All (mkAction 39513 [Entity 6])] m_glsl_identifier_entity, Some a_glsl_ecallback);
    (Aug [All (mkAction 39514 [Entity 5])] m_glsl_keyword_entity, Some a_glsl_ecallback);
    (Aug [All (mkAction 39515 [Entity 7])] m_glsl_operator_entity, Some a_glsl_ecallback);
    (Aug [All (mkAction 39516 [Entity 8])] (NotChr (alts r_space [r_digit])), Some a_glsl_ecallback)].

Definition the_parser : parser := mkParser [i_glsl_line] "GLSL_LANG".
Definition the_entities : parser := mkParser [i_glsl_entity] "GLSL_LANG".
