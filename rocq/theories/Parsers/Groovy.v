(** Transcription of /repo/src/parsers/groovy.rl: the line counting machine and the
    entity machine (written by tools/ragel/gen.py). *)
From Coq Require Import ZArith String List.
From Verif Require Import Base RagelSyntax.
From Verif.Parsers Require Import Common.
Import ListNotations.
Open Scope string_scope.
Open Scope Z_scope.
Open Scope list_scope.

(** groovy.rl:31 *)
Definition a_groovy_ccallback : action := mkAction 42001 [Switch [(0, Mls); (3, Mcode); ((-2), Minl "GROOVY_LANG"); ((-1), Mnl "GROOVY_LANG")]].

(** groovy.rl:47-54 *)
Definition m_groovy_line_comment : rx :=
  cats (Aug [Finish a_comment] (Lit (bytes "//"))) [
    Star (alts (Aug [Leave (mkAction 42501 [Entity (-2)]); Leave a_groovy_ccallback] m_escaped_newline) [
      m_ws;
      Aug [Finish a_comment] (Diff m_nonnewline m_ws)])].

(** groovy.rl:55-62 *)
Definition m_groovy_block_comment : rx :=
  CatFin (cats (Aug [Finish a_comment] (Lit (bytes "/*"))) [
    Star (alts (Aug [Leave (mkAction 42502 [Entity (-2)]); Leave a_groovy_ccallback] m_newline) [
      m_ws;
      Aug [Finish a_comment] (Diff m_nonnewline m_ws)])]) (Lit (bytes "*/")).

(** groovy.rl:63-63 *)
Definition m_groovy_comment : rx :=
  alts m_groovy_line_comment [m_groovy_block_comment].

(** groovy.rl:65-74 *)
Definition m_groovy_sq_str : rx :=
  cats (Aug [Finish a_code] (Lit (bytes "'"))) [
    Star (alts (Aug [Leave (mkAction 42503 [Entity (-2)]); Leave a_groovy_ccallback] m_escaped_newline) [
      m_ws;
      Aug [Finish a_code] (NCls [(9, 9); (32, 32); (39, 39); (92, 92)]);
      cats (Lit (bytes "\")) [Aug [Finish a_code] m_nonnewline]]);
    Lit (bytes "'")].

(** groovy.rl:75-84 *)
Definition m_groovy_dq_str : rx :=
  cats (Aug [Finish a_code] (Lit (bytes """"))) [
    Star (alts (Aug [Leave (mkAction 42504 [Entity (-2)]); Leave a_groovy_ccallback] m_escaped_newline) [
      m_ws;
      Aug [Finish a_code] (NCls [(9, 9); (32, 32); (34, 34); (92, 92)]);
      cats (Lit (bytes "\")) [Aug [Finish a_code] m_nonnewline]]);
    Lit (bytes """")].

(** groovy.rl:85-85 *)
Definition m_groovy_string : rx :=
  alts m_groovy_sq_str [m_groovy_dq_str].

(** groovy.rl:87-93 *)
Definition i_groovy_line : instance :=
  Scanner [
    (Aug [All (mkAction 42505 [Entity 0])] m_spaces, Some a_groovy_ccallback);
    (m_groovy_comment, None);
    (m_groovy_string, None);
    (Aug [All (mkAction 42506 [Entity (-1)])] m_newline, Some a_groovy_ccallback);
    (Aug [All (mkAction 42507 [Entity 3])] (NotChr r_space), Some a_groovy_ccallback)].

(** groovy.rl:97 *)
Definition a_groovy_ecallback : action := mkAction 42002 [Report "GROOVY_LANG" ["space"; "comment"; "string"; "any"]].

(** groovy.rl:102-102 *)
Definition m_groovy_line_comment_entity : rx :=
  cats (Lit (bytes "//")) [Star (alts m_escaped_newline [m_nonnewline])].

(** groovy.rl:103-103 *)
Definition m_groovy_block_comment_entity : rx :=
  CatFin (cats (Lit (bytes "/*")) [Star r_any]) (Lit (bytes "*/")).

(** groovy.rl:104-105 *)
Definition m_groovy_comment_entity : rx :=
  alts m_groovy_line_comment_entity [m_groovy_block_comment_entity].

(** groovy.rl:107-112 *)
Definition i_groovy_entity : instance :=
  Scanner [
    (Aug [All (mkAction 42508 [Entity 0])] (Plus r_space), Some a_groovy_ecallback);
    (Aug [All (mkAction 42509 [Entity 1])] m_groovy_comment_entity, Some a_groovy_ecallback);
    (NotChr r_space, None)].

Definition the_parser : parser := mkParser [i_groovy_line] "GROOVY_LANG".
Definition the_entities : parser := mkParser [i_groovy_entity] "GROOVY_LANG".
