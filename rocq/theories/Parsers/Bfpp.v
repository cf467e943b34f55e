(** Transcription of /repo/src/parsers/bfpp.rl: the line counting machine and the
    entity machine (written by tools/ragel/gen.py). *)
From Coq Require Import ZArith String List.
From Verif Require Import Base RagelSyntax.
From Verif.Parsers Require Import Common.
Import ListNotations.
Open Scope string_scope.
Open Scope Z_scope.
Open Scope list_scope.

(** bfpp.rl:31 *)
Definition a_bfpp_ccallback : action := mkAction 10001 [Switch [(0, Mls); (2, Mcode); (3, Mcode); (1, Mcomment); ((-2), Minl "BFPP_LANG"); ((-1), Mnl "BFPP_LANG")]].

(** bfpp.rl:53-53 *)
Definition m_bfpp_line_comment : rx :=
  cats (Aug [Finish a_comment] (Lit (bytes "="))) [Star m_nonnewline].

(** bfpp.rl:55-61 *)
Definition m_bfpp_include : rx :=
  CatFin (cats (Aug [Finish a_code] (Lit (bytes "@include("))) [
    Star (alts (Aug [Leave (mkAction 10501 [Entity (-2)]); Leave a_bfpp_ccallback] m_newline) [
      m_ws;
      Aug [Finish a_code] (Diff m_nonnewline m_ws)])]) (Lit (bytes ")")).

(** bfpp.rl:51-51 *)
Definition m_bfpp_operator : rx :=
  Aug [Finish a_code] (Cls [(33, 33); (35, 35); (37, 37); (43, 46); (58, 60); (62, 62); (91, 91); (93, 94)]).

(** bfpp.rl:63-70 *)
Definition i_bfpp_line : instance :=
  Scanner [
    (Aug [All (mkAction 10502 [Entity 0])] m_spaces, Some a_bfpp_ccallback);
    (Aug [All (mkAction 10503 [Entity (-1)])] m_newline, Some a_bfpp_ccallback);
    (m_bfpp_line_comment, None);
    (m_bfpp_include, None);
    (Aug [All (mkAction 10504 [Entity 2])] m_bfpp_operator, Some a_bfpp_ccallback);
    (Aug [All (mkAction 10505 [Entity 1])] (NotChr r_space), Some a_bfpp_ccallback)].

(** bfpp.rl:74 *)
Definition a_bfpp_ecallback : action := mkAction 10002 [Report "BFPP_LANG" ["space"; "comment"; "operator"; "include"]].

(** bfpp.rl:78-78 *)
Definition m_bfpp_operator_entity : rx :=
  Cls [(35, 35); (37, 37); (43, 46); (58, 60); (62, 62); (91, 91); (93, 94)].

(** bfpp.rl:80-80 *)
Definition m_bfpp_include_entity : rx :=
  CatFin (cats (Lit (bytes "@include(")) [Star r_any]) (Lit (bytes ")")).

(** bfpp.rl:82-82 *)
Definition m_bfpp_line_comment_entity : rx :=
  cats (Lit (bytes "=")) [Star (alts m_escaped_newline [m_nonnewline])].

(** bfpp.rl:84-85 *)
Definition m_bfpp_comment_entity : rx :=
  alts m_bfpp_line_comment_entity [
    NotStr (alts r_space [m_bfpp_operator_entity; m_bfpp_include_entity])].

(** bfpp.rl:87-92 *)
Definition i_bfpp_entity : instance :=
  Scanner [
    (Aug [All (mkAction 10506 [Entity 0])] (Plus r_space), Some a_bfpp_ecallback);
    (Aug [All (mkAction 10507 [Entity 2])] m_bfpp_operator_entity, Some a_bfpp_ecallback);
    (Aug [All (mkAction 10508 [Entity 3])] m_bfpp_include_entity, Some a_bfpp_ecallback);
    (Aug [All (mkAction 10509 [Entity 1])] m_bfpp_comment_entity, Some a_bfpp_ecallback)].

Definition the_parser : parser := mkParser [i_bfpp_line] "BFPP_LANG".
Definition the_entities : parser := mkParser [i_bfpp_entity] "BFPP_LANG".
