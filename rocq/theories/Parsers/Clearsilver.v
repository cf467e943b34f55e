(** Transcription of /repo/src/parsers/clearsilver.rl: the line counting machine and the
    entity machine (written by tools/ragel/gen.py). *)
From Coq Require Import ZArith String List.
From Verif Require Import Base RagelSyntax.
From Verif.Parsers Require Import Common.
Import ListNotations.
Open Scope string_scope.
Open Scope Z_scope.
Open Scope list_scope.

(** clearsilver.rl:31 *)
Definition a_cs_ccallback : action := mkAction 17001 [Switch [(0, Mls); (3, Mcode); ((-2), Minl "CS_LANG"); ((-1), Mnl "CS_LANG")]].

(** clearsilver.rl:47-47 *)
Definition m_cs_comment : rx :=
  cats (Aug [Finish a_comment] (Lit (bytes "#"))) [Star m_nonnewline].

(** clearsilver.rl:49-49 *)
Definition m_cs_string : rx :=
  cats (Aug [Finish a_code] (Lit (bytes """"))) [
    Star (alts (NCls [(10, 10); (12, 13); (34, 34); (92, 92)]) [cats (Lit (bytes "\")) [m_nonnewline]]);
    Lit (bytes """")].

(** clearsilver.rl:51-57 *)
Definition i_cs_line : instance :=
  Scanner [
    (Aug [All (mkAction 17501 [Entity 0])] m_spaces, Some a_cs_ccallback);
    (m_cs_comment, None);
    (m_cs_string, None);
    (Aug [All (mkAction 17502 [Entity (-1)])] m_newline, Some a_cs_ccallback);
    (Aug [All (mkAction 17503 [Entity 3])] (NotChr r_space), Some a_cs_ccallback)].

(** clearsilver.rl:61 *)
Definition a_cs_ecallback : action := mkAction 17002 [Report "CS_LANG" ["space"; "comment"; "string"; "any"]].

(** clearsilver.rl:65-65 *)
Definition m_cs_comment_entity : rx :=
  cats (Lit (bytes "#")) [Star m_nonnewline].

(** clearsilver.rl:67-72 *)
Definition i_cs_entity : instance :=
  Scanner [
    (Aug [All (mkAction 17504 [Entity 0])] (Plus r_space), Some a_cs_ecallback);
    (Aug [All (mkAction 17505 [Entity 1])] m_cs_comment_entity, Some a_cs_ecallback);
    (NotChr r_space, None)].

Definition the_parser : parser := mkParser [i_cs_line] "CS_LANG".
Definition the_entities : parser := mkParser [i_cs_entity] "CS_LANG".
