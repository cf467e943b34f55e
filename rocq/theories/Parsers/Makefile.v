(** Transcription of /repo/src/parsers/makefile.rl: the line counting machine and the
    entity machine (written by tools/ragel/gen.py). *)
From Coq Require Import ZArith String List.
From Verif Require Import Base RagelSyntax.
From Verif.Parsers Require Import Common.
Import ListNotations.
Open Scope string_scope.
Open Scope Z_scope.
Open Scope list_scope.

(** makefile.rl:31 *)
Definition a_make_ccallback : action := mkAction 59001 [Switch [(0, Mls); (3, Mcode); ((-2), Minl "MAKE_LANG"); ((-1), Mnl "MAKE_LANG")]].

(** makefile.rl:47-47 *)
Definition m_make_comment : rx :=
  cats (Aug [Finish a_comment] (Lit (bytes "#"))) [Star m_nonnewline].

(** makefile.rl:49-49 *)
Definition m_make_sq_str : rx :=
  cats (Aug [Finish a_code] (Lit (bytes "'"))) [
    Star (alts (NCls [(10, 10); (12, 13); (39, 39); (92, 92)]) [cats (Lit (bytes "\")) [m_nonnewline]]);
    Lit (bytes "'")].

(** makefile.rl:50-50 *)
Definition m_make_dq_str : rx :=
  cats (Aug [Finish a_code] (Lit (bytes """"))) [
    Star (alts (NCls [(10, 10); (12, 13); (34, 34); (92, 92)]) [cats (Lit (bytes "\")) [m_nonnewline]]);
    Lit (bytes """")].

(** makefile.rl:51-51 *)
Definition m_make_string : rx :=
  alts m_make_sq_str [m_make_dq_str].

(** makefile.rl:53-59 *)
Definition i_make_line : instance :=
  Scanner [
    (Aug [All (mkAction 59501 [Entity 0])] m_spaces, Some a_make_ccallback);
    (m_make_comment, None);
    (m_make_string, None);
    (Aug [All (mkAction 59502 [Entity (-1)])] m_newline, Some a_make_ccallback);
    (Aug [All (mkAction 59503 [Entity 3])] (NotChr r_space), Some a_make_ccallback)].

(** makefile.rl:63 *)
Definition a_make_ecallback : action := mkAction 59002 [Report "MAKE_LANG" ["space"; "comment"; "string"; "any"]].

(** makefile.rl:67-67 *)
Definition m_make_comment_entity : rx :=
  cats (Lit (bytes "#")) [Star m_nonnewline].

(** makefile.rl:69-74 *)
Definition i_make_entity : instance :=
  Scanner [
    (Aug [All (mkAction 59504 [Entity 0])] (Plus r_space), Some a_make_ecallback);
    (Aug [All (mkAction 59505 [Entity 1])] m_make_comment_entity, Some a_make_ecallback);
    (NotChr r_space, None)].

Definition the_parser : parser := mkParser [i_make_line] "MAKE_LANG".
Definition the_entities : parser := mkParser [i_make_entity] "MAKE_LANG".
