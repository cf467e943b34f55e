(** Transcription of /repo/src/parsers/rust.rl: the line counting machine and the
    entity machine (written by tools/ragel/gen.py). *)
From Coq Require Import ZArith String List.
From Verif Require Import Base RagelSyntax.
From Verif.Parsers Require Import Common.
Import ListNotations.
Open Scope string_scope.
Open Scope Z_scope.
Open Scope list_scope.

(** rust.rl:34 *)
Definition a_rust_ccallback : action := mkAction 91001 [Switch [(0, Mls); (7, Mcode); ((-2), Minl "RUST_LANG"); ((-1), Mnl "RUST_LANG")]].

(** rust.rl:50-57 *)
Definition m_rust_line_comment : rx :=
  cats (Aug [Finish a_comment] (Lit (bytes "//"))) [
    Star (alts (Aug [Leave (mkAction 91501 [Entity (-2)]); Leave a_rust_ccallback] m_escaped_newline) [
      m_ws;
      Aug [Finish a_comment] (Diff m_nonnewline m_ws)])].

(** rust.rl:58-65 *)
Definition m_rust_block_comment : rx :=
  CatFin (cats (Aug [Finish a_comment] (Lit (bytes "/*"))) [
    Star (alts (Aug [Leave (mkAction 91502 [Entity (-2)]); Leave a_rust_ccallback] m_newline) [
      m_ws;
      Aug [Finish a_comment] (Diff m_nonnewline m_ws)])]) (Lit (bytes "*/")).

(** rust.rl:66-66 *)
Definition m_rust_comment : rx :=
  alts m_rust_line_comment [m_rust_block_comment].

(** rust.rl:68-77 *)
Definition m_rust_dq_str : rx :=
  cats (Aug [Finish a_code] (Lit (bytes """"))) [
    Star (alts (Aug [Leave (mkAction 91503 [Entity (-2)]); Leave a_rust_ccallback] m_escaped_newline) [
      m_ws;
      Aug [Finish a_code] (NCls [(9, 9); (32, 32); (34, 34); (92, 92)]);
      cats (Lit (bytes "\")) [Aug [Finish a_code] m_nonnewline]]);
    Lit (bytes """")].

(** rust.rl:78-78 *)
Definition m_rust_string : rx :=
  m_rust_dq_str.

(** rust.rl:80-86 *)
Definition i_rust_line : instance :=
  Scanner [
    (Aug [All (mkAction 91504 [Entity 0])] m_spaces, Some a_rust_ccallback);
    (m_rust_comment, None);
    (m_rust_string, None);
    (Aug [All (mkAction 91505 [Entity (-1)])] m_newline, Some a_rust_ccallback);
    (Aug [All (mkAction 91506 [Entity 7])] (NotChr r_space), Some a_rust_ccallback)].

(** rust.rl:90 *)
Definition a_rust_ecallback : action := mkAction 91002 [Report "RUST_LANG" ["space"; "comment"; "string"; "number"; "keyword"; "identifier"; "operator"; "any"]].

(** rust.rl:94-94 *)
Definition m_rust_line_comment_entity : rx :=
  cats (Lit (bytes "//")) [Star (alts m_escaped_newline [m_nonnewline])].

(** rust.rl:95-95 *)
Definition m_rust_block_comment_entity : rx :=
  CatFin (cats (Lit (bytes "/*")) [Star r_any]) (Lit (bytes "*/")).

(** rust.rl:96-96 *)
Definition m_rust_comment_entity : rx :=
  alts m_rust_line_comment_entity [m_rust_block_comment_entity].

(** rust.rl:98-98 *)
Definition m_rust_string_entity : rx :=
  m_dq_str_with_escapes.

(** rust.rl:102-102 *)
Definition m_rust_int_suffix : rx :=
  cats (Cls [(105, 105); (117, 117)]) [
    Opt (alts (Lit (bytes "8")) [Lit (bytes "16"); Lit (bytes "32"); Lit (bytes "64")])].

(** rust.rl:105-105 *)
Definition m_rust_dec_lit : rx :=
  Plus (Cls [(48, 57); (95, 95)]).

(** rust.rl:106-106 *)
Definition m_rust_exponent : rx :=
  cats (Cls [(69, 69); (101, 101)]) [Opt (Cls [(43, 43); (45, 45)]); m_rust_dec_lit].

(** rust.rl:104-104 *)
Definition m_rust_float_suffix_ty : rx :=
  cats (Lit (bytes "f")) [alts (Lit (bytes "32")) [Lit (bytes "64")]].

(** rust.rl:107-108 *)
Definition m_rust_float_suffix : rx :=
  cats (Opt (alts m_rust_exponent [cats (Lit (bytes ".")) [m_rust_dec_lit; Opt m_rust_exponent]])) [
    Opt m_rust_float_suffix_ty].

(** rust.rl:110-110 *)
Definition m_rust_num_suffix : rx :=
  alts m_rust_int_suffix [m_rust_float_suffix].

(** rust.rl:112-116 *)
Definition m_rust_number_entity : rx :=
  alts (cats (Cls [(49, 57)]) [Star (Cls [(48, 57); (95, 95)]); Opt m_rust_num_suffix]) [
    cats (Lit (bytes "0")) [
      alts (cats (Star (Cls [(48, 57); (95, 95)])) [Opt m_rust_num_suffix]) [
        cats (Lit (bytes "b")) [Plus (Cls [(48, 49); (95, 95)]); Opt m_rust_int_suffix];
        cats (Lit (bytes "o")) [Plus (Cls [(48, 55); (95, 95)]); Opt m_rust_int_suffix];
        cats (Lit (bytes "x")) [
          Plus (Cls [(48, 57); (65, 70); (95, 95); (97, 102)]);
          Opt m_rust_int_suffix]]]].

(** rust.rl:118-118 *)
Definition m_rust_identifier_entity : rx :=
  cats (alts r_alpha [Lit (bytes "_")]) [Star (alts r_alnum [Lit (bytes "_")])].

(** rust.rl:120-126 *)
Definition m_rust_keyword_entity : rx :=
  alts (Lit (bytes "alignof")) [
    Lit (bytes "as");
    Lit (bytes "be");
    Lit (bytes "break");
    Lit (bytes "const");
    Lit (bytes "continue");
    Lit (bytes "do");
    Lit (bytes "else");
    Lit (bytes "enum");
    Lit (bytes "extern");
    Lit (bytes "false");
    Lit (bytes "fn");
    Lit (bytes "for");
    Lit (bytes "if");
    Lit (bytes "impl");
    Lit (bytes "impl");
    Lit (bytes "in");
    Lit (bytes "let");
    Lit (bytes "let");
    Lit (bytes "log");
    Lit (bytes "log");
    Lit (bytes "loop");
    Lit (bytes "match");
    Lit (bytes "mod");
    Lit (bytes "mod");
    Lit (bytes "mut");
    Lit (bytes "offsetof");
    Lit (bytes "once");
    Lit (bytes "priv");
    Lit (bytes "pub");
    Lit (bytes "pure");
    Lit (bytes "ref");
    Lit (bytes "return");
    Lit (bytes "self");
    Lit (bytes "sizeof");
    Lit (bytes "static");
    Lit (bytes "struct");
    Lit (bytes "super");
    Lit (bytes "trait");
    Lit (bytes "true");
    Lit (bytes "type");
    Lit (bytes "typeof");
    Lit (bytes "unsafe");
    Lit (bytes "use");
    Lit (bytes "while");
    Lit (bytes "yield")].

(** rust.rl:128-128 *)
Definition m_rust_operator_entity : rx :=
  Cls [(33, 33); (37, 38); (40, 47); (58, 64); (91, 91); (93, 94); (123, 126)].

(** rust.rl:130-139 *)
Definition i_rust_entity : instance :=
  Scanner [
    (Aug [All (mkAction 91507 [Entity 0])] (Plus r_space), Some a_rust_ecallback);
    (Aug [All (mkAction 91508 [Entity 1])] m_rust_comment_entity, Some a_rust_ecallback);
    (Aug [All (mkAction 91509 [Entity 2])] m_rust_string_entity, Some a_rust_ecallback);
    (Aug [All (mkAction 91510 [Entity 3])] m_rust_number_entity, Some a_rust_ecallback);
    (Aug [All (mkAction 91511 [Entity 5])] m_rust_identifier_entity, Some a_rust_ecallback);
    (Aug [All (mkAction 91512 [Entity 4])] m_rust_keyword_entity, Some a_rust_ecallback);
    (Aug [All (mkAction 91513 [Entity 6])] m_rust_operator_entity, Some a_rust_ecallback);
    (Aug [All (mkAction 91514 [Entity 7])] (NotChr (alts r_space [r_digit])), Some a_rust_ecallback)].

Definition the_parser : parser := mkParser [i_rust_line] "RUST_LANG".
Definition the_entities : parser := mkParser [i_rust_entity] "RUST_LANG".
