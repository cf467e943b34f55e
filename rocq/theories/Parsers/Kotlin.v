(** Transcription of /repo/src/parsers/kotlin.rl: the line counting machine and the
    entity machine (written by tools/ragel/gen.py). *)
From Coq Require Import ZArith String List.
From Verif Require Import Base RagelSyntax.
From Verif.Parsers Require Import Common.
Import ListNotations.
Open Scope string_scope.
Open Scope Z_scope.
Open Scope list_scope.

(** kotlin.rl:34 *)
Definition a_kotlin_ccallback : action := mkAction 53001 [Switch [(0, Mls); (7, Mcode); ((-2), Minl "KOTLIN_LANG"); ((-1), Mnl "KOTLIN_LANG")]].

(** kotlin.rl:54-54 *)
Definition m_kotlin_line_comment : rx :=
  cats (Aug [Finish a_comment] (Lit (bytes "//"))) [Star m_nonnewline].

(** kotlin.rl:50 *)
Definition a_kotlin_comment_nc_res : action := mkAction 53002 [VarSet 1 0].

(** kotlin.rl:51 *)
Definition a_kotlin_comment_nc_inc : action := mkAction 53003 [VarAdd 1 1].

(** kotlin.rl:52 *)
Definition a_kotlin_comment_nc_dec : action := mkAction 53004 [VarAdd 1 (-1)].

(** kotlin.rl:55-66 *)
Definition m_kotlin_block_comment : rx :=
  CatFin (cats (Aug [Enter a_kotlin_comment_nc_res; Finish a_comment] (Lit (bytes "/*"))) [
    Star (alts (Aug [Leave (mkAction 53501 [Entity (-2)]); Leave a_kotlin_ccallback] m_newline) [
      m_ws;
      Aug [Finish a_kotlin_comment_nc_inc; Finish a_comment] (Lit (bytes "/*"));
      Aug [Finish a_kotlin_comment_nc_dec; Finish a_comment] (Lit (bytes "*/"));
      Aug [Finish a_comment] (Diff m_nonnewline m_ws)])]) (Aug [Finish a_comment] (Aug [When (IsZero 1) true] (Lit (bytes "*/")))).

(** kotlin.rl:67-67 *)
Definition m_kotlin_comment : rx :=
  alts m_kotlin_line_comment [m_kotlin_block_comment].

(** kotlin.rl:69-71 *)
Definition m_kotlin_dq_str : rx :=
  cats (Aug [Finish a_code] (Lit (bytes """"))) [
    Aug [Finish (mkAction 53504 [Hold])] (alts (NCls [(34, 34)]) [
      cats (Lit (bytes """")) [Aug [Finish (mkAction 53503 [Hold])] (NCls [(34, 34)])]]);
    Star (alts (NCls [(10, 10); (12, 13); (34, 34); (92, 92)]) [cats (Lit (bytes "\")) [m_nonnewline]]);
    Lit (bytes """")].

(** kotlin.rl:72-79 *)
Definition m_kotlin_raw_str : rx :=
  cats (Aug [Finish a_code] (Lit (bytes """"""""))) [
    Star (alts (Aug [Leave (mkAction 53505 [Entity (-2)]); Leave a_kotlin_ccallback] m_newline) [
      m_ws;
      Aug [Finish a_code] (NCls [(9, 9); (32, 32)])]);
    Lit (bytes """""""")].

(** kotlin.rl:80-80 *)
Definition m_kotlin_string : rx :=
  alts m_kotlin_dq_str [m_kotlin_raw_str].

(** kotlin.rl:82-88 *)
Definition i_kotlin_line : instance :=
  Scanner [
    (Aug [All (mkAction 53506 [Entity 0])] m_spaces, Some a_kotlin_ccallback);
    (m_kotlin_comment, None);
    (m_kotlin_string, None);
    (Aug [All (mkAction 53507 [Entity (-1)])] m_newline, Some a_kotlin_ccallback);
    (Aug [All (mkAction 53508 [Entity 7])] (NotChr r_space), Some a_kotlin_ccallback)].

(** kotlin.rl:92 *)
Definition a_kotlin_ecallback : action := mkAction 53005 [Report "KOTLIN_LANG" ["space"; "comment"; "string"; "number"; "keyword"; "identifier"; "operator"; "any"]].

(** kotlin.rl:96-96 *)
Definition m_kotlin_line_comment_entity : rx :=
  cats (Lit (bytes "//")) [Star m_nonnewline].

(** kotlin.rl:97-97 *)
Definition m_kotlin_block_comment_entity : rx :=
  CatFin (cats (Lit (bytes "/*")) [Star r_any]) (Lit (bytes "*/")).

(** kotlin.rl:98-98 *)
Definition m_kotlin_comment_entity : rx :=
  alts m_kotlin_line_comment_entity [m_kotlin_block_comment_entity].

(** kotlin.rl:100-100 *)
Definition m_kotlin_raw_string_entity : rx :=
  CatFin (cats (Lit (bytes """""""")) [Star r_any]) (Lit (bytes """""""")).

(** kotlin.rl:101-101 *)
Definition m_kotlin_string_entity : rx :=
  alts m_dq_str_with_escapes [m_kotlin_raw_string_entity].

(** kotlin.rl:104-104 *)
Definition m_kotlin_long_suffix : rx :=
  Lit (bytes "L").

(** kotlin.rl:108-108 *)
Definition m_kotlin_dec_lit : rx :=
  Plus (Cls [(48, 57)]).

(** kotlin.rl:109-109 *)
Definition m_kotlin_exponent : rx :=
  cats (Cls [(69, 69); (101, 101)]) [Opt (Cls [(43, 43); (45, 45)]); m_kotlin_dec_lit].

(** kotlin.rl:103-103 *)
Definition m_kotlin_float_suffix_ty : rx :=
  Cls [(70, 70); (102, 102)].

(** kotlin.rl:110-111 *)
Definition m_kotlin_float_suffix : rx :=
  cats (Opt (alts m_kotlin_exponent [cats (Lit (bytes ".")) [m_kotlin_dec_lit; Opt m_kotlin_exponent]])) [
    Opt m_kotlin_float_suffix_ty].

(** kotlin.rl:113-113 *)
Definition m_kotlin_num_suffix : rx :=
  alts m_kotlin_long_suffix [m_kotlin_float_suffix].

(** kotlin.rl:105-106 *)
Definition m_kotlin_hex_suffix : rx :=
  alts m_kotlin_long_suffix [
    cats (Lit (bytes ".")) [
      Star (Cls [(48, 57); (65, 70); (97, 102)]);
      Opt m_kotlin_float_suffix_ty]].

(** kotlin.rl:115-118 *)
Definition m_kotlin_number_entity : rx :=
  alts (cats (Cls [(49, 57)]) [Star (Cls [(48, 57)]); Opt m_kotlin_num_suffix]) [
    cats (Lit (bytes "0")) [
      alts (cats (Star (Cls [(48, 57)])) [Opt m_kotlin_num_suffix]) [
        cats (Lit (bytes "b")) [Plus (Cls [(48, 49)]); Opt m_kotlin_long_suffix];
        cats (Lit (bytes "x")) [
          Plus (Cls [(48, 57); (65, 70); (97, 102)]);
          Opt m_kotlin_hex_suffix]]]].

(** kotlin.rl:120-120 *)
Definition m_kotlin_plain_identifier : rx :=
  cats (alts r_alpha [Lit (bytes "_")]) [Star (alts r_alnum [Lit (bytes "_")])].

(** kotlin.rl:121-121 *)
Definition m_kotlin_identifier_entity : rx :=
  alts m_kotlin_plain_identifier [
    cats (Lit (bytes "`")) [m_kotlin_plain_identifier; Lit (bytes "`")]].

(** kotlin.rl:123-127 *)
Definition m_kotlin_keyword_entity : rx :=
  alts (Lit (bytes "as")) [
    Lit (bytes "break");
    Lit (bytes "class");
    Lit (bytes "continue");
    Lit (bytes "do");
    Lit (bytes "else");
    Lit (bytes "false");
    Lit (bytes "for");
    Lit (bytes "fun");
    Lit (bytes "if");
    Lit (bytes "in");
    Lit (bytes "is");
    Lit (bytes "null");
    Lit (bytes "object");
    Lit (bytes "package");
    Lit (bytes "return");
    Lit (bytes "super");
    Lit (bytes "this");
    Lit (bytes "This");
    Lit (bytes "throw");
    Lit (bytes "trait");
    Lit (bytes "true");
    Lit (bytes "try");
    Lit (bytes "type");
    Lit (bytes "val");
    Lit (bytes "var");
    Lit (bytes "when");
    Lit (bytes "while")].

(** kotlin.rl:129-129 *)
Definition m_kotlin_operator_entity : rx :=
  Cls [(33, 33); (37, 38); (40, 47); (58, 63); (91, 91); (93, 94); (123, 126)].

(** kotlin.rl:131-140 *)
Definition i_kotlin_entity : instance :=
  Scanner [
    (Aug [All (mkAction 53509 [Entity 0])] (Plus r_space), Some a_kotlin_ecallback);
    (Aug [All (mkAction 53510 [Entity 1])] m_kotlin_comment_entity, Some a_kotlin_ecallback);
    (Aug [All (mkAction 53511 [Entity 2])] m_kotlin_string_entity, Some a_kotlin_ecallback);
    (Aug [All (mkAction 53512 [Entity 3])] m_kotlin_number_entity, Some a_kotlin_ecallback);
    (Aug [All (mkAction 53513 [Entity 5])] m_kotlin_identifier_entity, Some a_kotlin_ecallback);
    (Aug [All (mkAction 53514 [Entity 4])] m_kotlin_keyword_entity, Some a_kotlin_ecallback);
    (Aug [All (mkAction 53515 [Entity 6])] m_kotlin_operator_entity, Some a_kotlin_ecallback);
    (Aug [All (mkAction 53516 [Entity 7])] (NotChr (alts r_space [r_digit])), Some a_kotlin_ecallback)].

Definition the_parser : parser := mkParser [i_kotlin_line] "KOTLIN_LANG".
Definition the_entities : parser := mkParser [i_kotlin_entity] "KOTLIN_LANG".
