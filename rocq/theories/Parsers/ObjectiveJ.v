(** Transcription of /repo/src/parsers/objective_j.rl: the line counting machine and the
    entity machine (written by tools/ragel/gen.py). *)
From Coq Require Import ZArith String List.
From Verif Require Import Base RagelSyntax.
From Verif.Parsers Require Import Common.
Import ListNotations.
Open Scope string_scope.
Open Scope Z_scope.
Open Scope list_scope.

(** objective_j.rl:32 *)
Definition a_objj_ccallback : action := mkAction 73001 [Switch [(0, Mls); (3, Mcode); ((-2), Minl "OBJJ_LANG"); ((-1), Mnl "OBJJ_LANG")]].

(** objective_j.rl:48-55 *)
Definition m_objj_line_comment : rx :=
  cats (Aug [Finish a_comment] (Lit (bytes "//"))) [
    Star (alts (Aug [Leave (mkAction 73501 [Entity (-2)]); Leave a_objj_ccallback] m_escaped_newline) [
      m_ws;
      Aug [Finish a_comment] (Diff m_nonnewline m_ws)])].

(** objective_j.rl:56-63 *)
Definition m_objj_block_comment : rx :=
  CatFin (cats (Aug [Finish a_comment] (Lit (bytes "/*"))) [
    Star (alts (Aug [Leave (mkAction 73502 [Entity (-2)]); Leave a_objj_ccallback] m_newline) [
      m_ws;
      Aug [Finish a_comment] (Diff m_nonnewline m_ws)])]) (Lit (bytes "*/")).

(** objective_j.rl:64-64 *)
Definition m_objj_comment : rx :=
  alts m_objj_line_comment [m_objj_block_comment].

(** objective_j.rl:66-66 *)
Definition m_objj_sq_str : rx :=
  cats (Aug [Finish a_code] (Lit (bytes "'"))) [
    Star (alts (NCls [(10, 10); (12, 13); (39, 39); (92, 92)]) [cats (Lit (bytes "\")) [m_nonnewline]]);
    Lit (bytes "'")].

(** objective_j.rl:67-67 *)
Definition m_objj_dq_str : rx :=
  cats (Aug [Finish a_code] (Lit (bytes """"))) [
    Star (alts (NCls [(10, 10); (12, 13); (34, 34); (92, 92)]) [cats (Lit (bytes "\")) [m_nonnewline]]);
    Lit (bytes """")].

(** objective_j.rl:68-68 *)
Definition m_objj_string : rx :=
  alts m_objj_sq_str [m_objj_dq_str].

(** objective_j.rl:70-76 *)
Definition i_objj_line : instance :=
  Scanner [
    (Aug [All (mkAction 73503 [Entity 0])] m_spaces, Some a_objj_ccallback);
    (m_objj_comment, None);
    (m_objj_string, None);
    (Aug [All (mkAction 73504 [Entity (-1)])] m_newline, Some a_objj_ccallback);
    (Aug [All (mkAction 73505 [Entity 3])] (NotChr r_space), Some a_objj_ccallback)].

(** objective_j.rl:80 *)
Definition a_objj_ecallback : action := mkAction 73002 [Report "OBJJ_LANG" ["space"; "comment"; "string"; "any"]].

(** objective_j.rl:84-84 *)
Definition m_objj_line_comment_entity : rx :=
  cats (Lit (bytes "//")) [Star (alts m_escaped_newline [m_nonnewline])].

(** objective_j.rl:85-85 *)
Definition m_objj_block_comment_entity : rx :=
  CatFin (cats (Lit (bytes "/*")) [Star r_any]) (Lit (bytes "*/")).

(** objective_j.rl:86-86 *)
Definition m_objj_comment_entity : rx :=
  alts m_objj_line_comment_entity [m_objj_block_comment_entity].

(** objective_j.rl:88-93 *)
Definition i_objj_entity : instance :=
  Scanner [
    (Aug [All (mkAction 73506 [Entity 0])] (Plus r_space), Some a_objj_ecallback);
    (Aug [All (mkAction 73507 [Entity 1])] m_objj_comment_entity, Some a_objj_ecallback);
    (NotChr r_space, None)].

Definition the_parser : parser := mkParser [i_objj_line] "OBJJ_LANG".
Definition the_entities : parser := mkParser [i_objj_entity] "OBJJ_LANG".
