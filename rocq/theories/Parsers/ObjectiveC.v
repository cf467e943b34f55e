(** Transcription of /repo/src/parsers/objective_c.rl: the line counting machine and the
    entity machine (written by tools/ragel/gen.py). *)
From Coq Require Import ZArith String List.
From Verif Require Import Base RagelSyntax.
From Verif.Parsers Require Import Common.
Import ListNotations.
Open Scope string_scope.
Open Scope Z_scope.
Open Scope list_scope.

(** objective_c.rl:31 *)
Definition a_objc_ccallback : action := mkAction 72001 [Switch [(0, Mls); (3, Mcode); ((-2), Minl "OBJC_LANG"); ((-1), Mnl "OBJC_LANG")]].

(** objective_c.rl:47-54 *)
Definition m_objc_line_comment : rx :=
  cats (Aug [Finish a_comment] (Lit (bytes "//"))) [
    Star (alts (Aug [Leave (mkAction 72501 [Entity (-2)]); Leave a_objc_ccallback] m_escaped_newline) [
      m_ws;
      Aug [Finish a_comment] (Diff m_nonnewline m_ws)])].

(** objective_c.rl:55-62 *)
Definition m_objc_block_comment : rx :=
  CatFin (cats (Aug [Finish a_comment] (Lit (bytes "/*"))) [
    Star (alts (Aug [Leave (mkAction 72502 [Entity (-2)]); Leave a_objc_ccallback] m_newline) [
      m_ws;
      Aug [Finish a_comment] (Diff m_nonnewline m_ws)])]) (Lit (bytes "*/")).

(** objective_c.rl:63-63 *)
Definition m_objc_comment : rx :=
  alts m_objc_line_comment [m_objc_block_comment].

(** objective_c.rl:65-65 *)
Definition m_objc_sq_str : rx :=
  cats (Aug [Finish a_code] (Lit (bytes "'"))) [
    Star (alts (NCls [(10, 10); (12, 13); (39, 39); (92, 92)]) [cats (Lit (bytes "\")) [m_nonnewline]]);
    Lit (bytes "'")].

(** objective_c.rl:66-66 *)
Definition m_objc_dq_str : rx :=
  cats (Aug [Finish a_code] (Lit (bytes """"))) [
    Star (alts (NCls [(10, 10); (12, 13); (34, 34); (92, 92)]) [cats (Lit (bytes "\")) [m_nonnewline]]);
    Lit (bytes """")].

(** objective_c.rl:67-67 *)
Definition m_objc_string : rx :=
  alts m_objc_sq_str [m_objc_dq_str].

(** objective_c.rl:69-75 *)
Definition i_objc_line : instance :=
  Scanner [
    (Aug [All (mkAction 72503 [Entity 0])] m_spaces, Some a_objc_ccallback);
    (m_objc_comment, None);
    (m_objc_string, None);
    (Aug [All (mkAction 72504 [Entity (-1)])] m_newline, Some a_objc_ccallback);
    (Aug [All (mkAction 72505 [Entity 3])] (NotChr r_space), Some a_objc_ccallback)].

(** objective_c.rl:79 *)
Definition a_objc_ecallback : action := mkAction 72002 [Report "OBJC_LANG" ["space"; "comment"; "string"; "any"]].

(** objective_c.rl:83-83 *)
Definition m_objc_line_comment_entity : rx :=
  cats (Lit (bytes "//")) [Star (alts m_escaped_newline [m_nonnewline])].

(** objective_c.rl:84-84 *)
Definition m_objc_block_comment_entity : rx :=
  CatFin (cats (Lit (bytes "/*")) [Star r_any]) (Lit (bytes "*/")).

(** objective_c.rl:85-85 *)
Definition m_objc_comment_entity : rx :=
  alts m_objc_line_comment_entity [m_objc_block_comment_entity].

(** objective_c.rl:87-92 *)
Definition i_objc_entity : instance :=
  Scanner [
    (Aug [All (mkAction 72506 [Entity 0])] (Plus r_space), Some a_objc_ecallback);
    (Aug [All (mkAction 72507 [Entity 1])] m_objc_comment_entity, Some a_objc_ecallback);
    (NotChr r_space, None)].

Definition the_parser : parser := mkParser [i_objc_line] "OBJC_LANG".
Definition the_entities : parser := mkParser [i_objc_entity] "OBJC_LANG".
