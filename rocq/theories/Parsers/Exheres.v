(** Transcription of /repo/src/parsers/exheres.rl: the line counting machine and the
    entity machine (written by tools/ragel/gen.py). *)
From Coq Require Import ZArith String List.
From Verif Require Import Base RagelSyntax.
From Verif.Parsers Require Import Common.
Import ListNotations.
Open Scope string_scope.
Open Scope Z_scope.
Open Scope list_scope.

(** exheres.rl:31 *)
Definition a_exheres_ccallback : action := mkAction 33001 [Switch [(0, Mls); (3, Mcode); ((-2), Minl "EXHERES_LANG"); ((-1), Mnl "EXHERES_LANG")]].

(** exheres.rl:47-47 *)
Definition m_exheres_comment : rx :=
  cats (Aug [Finish a_comment] (Lit (bytes "#"))) [Star m_nonnewline].

(** exheres.rl:49-49 *)
Definition m_exheres_sq_str : rx :=
  cats (Aug [Finish a_code] (Lit (bytes "'"))) [
    Star (alts (NCls [(10, 10); (12, 13); (39, 39); (92, 92)]) [cats (Lit (bytes "\")) [m_nonnewline]]);
    Lit (bytes "'")].

(** exheres.rl:50-50 *)
Definition m_exheres_dq_str : rx :=
  cats (Aug [Finish a_code] (Lit (bytes """"))) [
    Star (alts (NCls [(10, 10); (12, 13); (34, 34); (92, 92)]) [cats (Lit (bytes "\")) [m_nonnewline]]);
    Lit (bytes """")].

(** exheres.rl:51-51 *)
Definition m_exheres_string : rx :=
  alts m_exheres_sq_str [m_exheres_dq_str].

(** exheres.rl:53-59 *)
Definition i_exheres_line : instance :=
  Scanner [
    (Aug [All (mkAction 33501 [Entity 0])] m_spaces, Some a_exheres_ccallback);
    (m_exheres_comment, None);
    (m_exheres_string, None);
    (Aug [All (mkAction 33502 [Entity (-1)])] m_newline, Some a_exheres_ccallback);
    (Aug [All (mkAction 33503 [Entity 3])] (NotChr r_space), Some a_exheres_ccallback)].

(** exheres.rl:63 *)
Definition a_exheres_ecallback : action := mkAction 33002 [Report "EXHERES_LANG" ["space"; "comment"; "string"; "any"]].

(** exheres.rl:68-68 *)
Definition m_exheres_comment_entity : rx :=
  cats (Lit (bytes "#")) [Star m_nonnewline].

(** exheres.rl:70-75 *)
Definition i_exheres_entity : instance :=
  Scanner [
    (Aug [All (mkAction 33504 [Entity 0])] (Plus r_space), Some a_exheres_ecallback);
    (Aug [All (mkAction 33505 [Entity 1])] m_exheres_comment_entity, Some a_exheres_ecallback);
    (NotChr r_space, None)].

Definition the_parser : parser := mkParser [i_exheres_line] "EXHERES_LANG".
Definition the_entities : parser := mkParser [i_exheres_entity] "EXHERES_LANG".
