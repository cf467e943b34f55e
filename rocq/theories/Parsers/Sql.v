(** Transcription of /repo/src/parsers/sql.rl: the line counting machine and the
    entity machine (written by tools/ragel/gen.py). *)
From Coq Require Import ZArith String List.
From Verif Require Import Base RagelSyntax.
From Verif.Parsers Require Import Common.
Import ListNotations.
Open Scope string_scope.
Open Scope Z_scope.
Open Scope list_scope.

(** sql.rl:31 *)
Definition a_sql_ccallback : action := mkAction 96001 [Switch [(0, Mls); (3, Mcode); ((-2), Minl "SQL_LANG"); ((-1), Mnl "SQL_LANG")]].

(** sql.rl:47-47 *)
Definition m_sql_line_comment : rx :=
  cats (Aug [Finish a_comment] (alts (Lit (bytes "--")) [Lit (bytes "#"); Lit (bytes "//")])) [
    Star m_nonnewline].

(** sql.rl:48-55 *)
Definition m_sql_c_block_comment : rx :=
  CatFin (cats (Aug [Finish a_comment] (Lit (bytes "/*"))) [
    Star (alts (Aug [Leave (mkAction 96501 [Entity (-2)]); Leave a_sql_ccallback] m_newline) [
      m_ws;
      Aug [Finish a_comment] (Diff m_nonnewline m_ws)])]) (Lit (bytes "*/")).

(** sql.rl:56-63 *)
Definition m_sql_block_comment : rx :=
  CatFin (cats (Aug [Finish a_comment] (Lit (bytes "{"))) [
    Star (alts (Aug [Leave (mkAction 96502 [Entity (-2)]); Leave a_sql_ccallback] m_newline) [
      m_ws;
      Aug [Finish a_comment] (Diff m_nonnewline m_ws)])]) (Lit (bytes "}")).

(** sql.rl:64-64 *)
Definition m_sql_comment : rx :=
  alts m_sql_line_comment [m_sql_c_block_comment; m_sql_block_comment].

(** sql.rl:66-66 *)
Definition m_sql_sq_str : rx :=
  cats (Aug [Finish a_code] (Lit (bytes "'"))) [
    Star (alts (NCls [(10, 10); (12, 13); (39, 39); (92, 92)]) [cats (Lit (bytes "\")) [m_nonnewline]]);
    Lit (bytes "'")].

(** sql.rl:67-67 *)
Definition m_sql_dq_str : rx :=
  cats (Aug [Finish a_code] (Lit (bytes """"))) [
    Star (alts (NCls [(10, 10); (12, 13); (34, 34); (92, 92)]) [cats (Lit (bytes "\")) [m_nonnewline]]);
    Lit (bytes """")].

(** sql.rl:68-68 *)
Definition m_sql_string : rx :=
  alts m_sql_sq_str [m_sql_dq_str].

(** sql.rl:70-76 *)
Definition i_sql_line : instance :=
  Scanner [
    (Aug [All (mkAction 96503 [Entity 0])] m_spaces, Some a_sql_ccallback);
    (m_sql_comment, None);
    (m_sql_string, None);
    (Aug [All (mkAction 96504 [Entity (-1)])] m_newline, Some a_sql_ccallback);
    (Aug [All (mkAction 96505 [Entity 3])] (NotChr r_space), Some a_sql_ccallback)].

(** sql.rl:80 *)
Definition a_sql_ecallback : action := mkAction 96002 [Report "SQL_LANG" ["space"; "comment"; "string"; "any"]].

(** sql.rl:84-84 *)
Definition m_sql_line_comment_entity : rx :=
  cats (alts (Lit (bytes "--")) [Lit (bytes "#"); Lit (bytes "//")]) [Star m_nonnewline].

(** sql.rl:85-85 *)
Definition m_sql_c_block_comment_entity : rx :=
  CatFin (cats (Lit (bytes "/*")) [Star r_any]) (Lit (bytes "*/")).

(** sql.rl:86-86 *)
Definition m_sql_block_comment_entity : rx :=
  CatFin (cats (Lit (bytes "{")) [Star r_any]) (Lit (bytes "}")).

(** sql.rl:87-88 *)
Definition m_sql_comment_entity : rx :=
  alts m_sql_line_comment_entity [m_sql_c_block_comment_entity; m_sql_block_comment_entity].

(** sql.rl:90-95 *)
Definition i_sql_entity : instance :=
  Scanner [
    (Aug [All (mkAction 96506 [Entity 0])] (Plus r_space), Some a_sql_ecallback);
    (Aug [All (mkAction 96507 [Entity 1])] m_sql_comment_entity, Some a_sql_ecallback);
    (NotChr r_space, None)].

Definition the_parser : parser := mkParser [i_sql_line] "SQL_LANG".
Definition the_entities : parser := mkParser [i_sql_entity] "SQL_LANG".
