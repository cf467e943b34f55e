(** Transcription of /repo/src/parsers/javascript.rl: the line counting machine and the
    entity machine (written by tools/ragel/gen.py). *)
From Coq Require Import ZArith String List.
From Verif Require Import Base RagelSyntax.
From Verif.Parsers Require Import Common.
Import ListNotations.
Open Scope string_scope.
Open Scope Z_scope.
Open Scope list_scope.

(** javascript.rl:33 *)
Definition a_js_ccallback : action := mkAction 50001 [Switch [(0, Mls); (7, Mcode); ((-2), Minl "JS_LANG"); ((-1), Mnl "JS_LANG")]].

(** javascript.rl:49-49 *)
Definition m_js_line_comment : rx :=
  cats (Aug [Finish a_comment] (Lit (bytes "//"))) [Star m_nonnewline].

(** javascript.rl:50-57 *)
Definition m_js_block_comment : rx :=
  CatFin (cats (Aug [Finish a_comment] (Lit (bytes "/*"))) [
    Star (alts (Aug [Leave (mkAction 50501 [Entity (-2)]); Leave a_js_ccallback] m_newline) [
      m_ws;
      Aug [Finish a_comment] (Diff m_nonnewline m_ws)])]) (Lit (bytes "*/")).

(** javascript.rl:58-58 *)
Definition m_js_comment : rx :=
  alts m_js_line_comment [m_js_block_comment].

(** javascript.rl:62-71 *)
Definition m_js_sq_str : rx :=
  cats (Aug [Finish a_code] (Lit (bytes "'"))) [
    Star (alts (Aug [Leave (mkAction 50502 [Entity (-2)]); Leave a_js_ccallback] m_escaped_newline) [
      m_ws;
      Aug [Finish a_code] (NCls [(9, 9); (32, 32); (39, 39); (92, 92)]);
      cats (Lit (bytes "\")) [Aug [Finish a_code] m_nonnewline]]);
    Lit (bytes "'")].

(** javascript.rl:72-81 *)
Definition m_js_dq_str : rx :=
  cats (Aug [Finish a_code] (Lit (bytes """"))) [
    Star (alts (Aug [Leave (mkAction 50503 [Entity (-2)]); Leave a_js_ccallback] m_escaped_newline) [
      m_ws;
      Aug [Finish a_code] (NCls [(9, 9); (32, 32); (34, 34); (92, 92)]);
      cats (Lit (bytes "\")) [Aug [Finish a_code] m_nonnewline]]);
    Lit (bytes """")].

(** javascript.rl:82-82 *)
Definition m_js_regex_str : rx :=
  cats (Lit (bytes "/")) [
    NCls [(42, 42); (47, 47)];
    Star (alts (NCls [(10, 10); (12, 13); (47, 47); (92, 92)]) [cats (Lit (bytes "\")) [m_nonnewline]]);
    Aug [Finish a_code] (Lit (bytes "/"))].

(** javascript.rl:83-83 *)
Definition m_js_string : rx :=
  alts m_js_sq_str [m_js_dq_str; m_js_regex_str].

(** javascript.rl:85-91 *)
Definition i_js_line : instance :=
  Scanner [
    (Aug [All (mkAction 50504 [Entity 0])] m_spaces, Some a_js_ccallback);
    (m_js_comment, None);
    (m_js_string, None);
    (Aug [All (mkAction 50505 [Entity (-1)])] m_newline, Some a_js_ccallback);
    (Aug [All (mkAction 50506 [Entity 7])] (NotChr r_space), Some a_js_ccallback)].

(** javascript.rl:95 *)
Definition a_js_ecallback : action := mkAction 50002 [Report "JS_LANG" ["space"; "comment"; "string"; "number"; "keyword"; "identifier"; "operator"; "any"]].

(** javascript.rl:99-99 *)
Definition m_js_line_comment_entity : rx :=
  cats (Lit (bytes "//")) [Star m_nonnewline].

(** javascript.rl:100-100 *)
Definition m_js_block_comment_entity : rx :=
  CatFin (cats (Lit (bytes "/*")) [Star r_any]) (Lit (bytes "*/")).

(** javascript.rl:101-101 *)
Definition m_js_comment_entity : rx :=
  alts m_js_line_comment_entity [m_js_block_comment_entity].

(** javascript.rl:103-108 *)
Definition i_js_entity : instance :=
  Scanner [
    (Aug [All (mkAction 50507 [Entity 0])] (Plus r_space), Some a_js_ecallback);
    (Aug [All (mkAction 50508 [Entity 1])] m_js_comment_entity, Some a_js_ecallback);
    (NotChr r_space, None)].

Definition the_parser : parser := mkParser [i_js_line] "JS_LANG".
Definition the_entities : parser := mkParser [i_js_entity] "JS_LANG".
