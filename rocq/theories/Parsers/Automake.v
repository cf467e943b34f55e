(** Transcription of /repo/src/parsers/automake.rl: the line counting machine and the
    entity machine (written by tools/ragel/gen.py). *)
From Coq Require Import ZArith String List.
From Verif Require Import Base RagelSyntax.
From Verif.Parsers Require Import Common.
Import ListNotations.
Open Scope string_scope.
Open Scope Z_scope.
Open Scope list_scope.

(** automake.rl:31 *)
Definition a_am_ccallback : action := mkAction 7001 [Switch [(0, Mls); (3, Mcode); ((-2), Minl "AM_LANG"); ((-1), Mnl "AM_LANG")]].

(** automake.rl:47-47 *)
Definition m_am_comment : rx :=
  cats (Aug [Finish a_comment] (Lit (bytes "#"))) [Star m_nonnewline].

(** automake.rl:49-49 *)
Definition m_am_sq_str : rx :=
  cats (Aug [Finish a_code] (Lit (bytes "'"))) [
    Star (alts (NCls [(10, 10); (12, 13); (39, 39); (92, 92)]) [cats (Lit (bytes "\")) [m_nonnewline]]);
    Lit (bytes "'")].

(** automake.rl:50-50 *)
Definition m_am_dq_str : rx :=
  cats (Aug [Finish a_code] (Lit (bytes """"))) [
    Star (alts (NCls [(10, 10); (12, 13); (34, 34); (92, 92)]) [cats (Lit (bytes "\")) [m_nonnewline]]);
    Lit (bytes """")].

(** automake.rl:51-51 *)
Definition m_am_string : rx :=
  alts m_am_sq_str [m_am_dq_str].

(** automake.rl:53-59 *)
Definition i_am_line : instance :=
  Scanner [
    (Aug [All (mkAction 7501 [Entity 0])] m_spaces, Some a_am_ccallback);
    (m_am_comment, None);
    (m_am_string, None);
    (Aug [All (mkAction 7502 [Entity (-1)])] m_newline, Some a_am_ccallback);
    (Aug [All (mkAction 7503 [Entity 3])] (NotChr r_space), Some a_am_ccallback)].

(** automake.rl:63 *)
Definition a_am_ecallback : action := mkAction 7002 [Report "AM_LANG" ["space"; "comment"; "string"; "any"]].

(** automake.rl:67-67 *)
Definition m_am_comment_entity : rx :=
  cats (Lit (bytes "#")) [Star m_nonnewline].

(** automake.rl:69-74 *)
Definition i_am_entity : instance :=
  Scanner [
    (Aug [All (mkAction 7504 [Entity 0])] (Plus r_space), Some a_am_ecallback);
    (Aug [All (mkAction 7505 [Entity 1])] m_am_comment_entity, Some a_am_ecallback);
    (NotChr r_space, None)].

Definition the_parser : parser := mkParser [i_am_line] "AM_LANG".
Definition the_entities : parser := mkParser [i_am_entity] "AM_LANG".
