(** Transcription of /repo/src/parsers/metafont.rl: the line counting machine and the
    entity machine (written by tools/ragel/gen.py). *)
From Coq Require Import ZArith String List.
From Verif Require Import Base RagelSyntax.
From Verif.Parsers Require Import Common.
Import ListNotations.
Open Scope string_scope.
Open Scope Z_scope.
Open Scope list_scope.

(** metafont.rl:31 *)
Definition a_metafont_ccallback : action := mkAction 62001 [Switch [(0, Mls); (3, Mcode); ((-2), Minl "METAFONT_LANG"); ((-1), Mnl "METAFONT_LANG")]].

(** metafont.rl:47-47 *)
Definition m_metafont_comment : rx :=
  cats (Aug [Finish (mkAction 62501 [Hold]); Finish a_comment] (Lit (bytes "%"))) [
    Star m_nonnewline].

(** metafont.rl:49-49 *)
Definition m_metafont_string : rx :=
  cats (Aug [Finish a_code] (Lit (bytes """"))) [
    Star (alts (NCls [(10, 10); (12, 13); (34, 34); (92, 92)]) [cats (Lit (bytes "\")) [m_nonnewline]]);
    Lit (bytes """")].

(** metafont.rl:51-57 *)
Definition i_metafont_line : instance :=
  Scanner [
    (Aug [All (mkAction 62502 [Entity 0])] m_spaces, Some a_metafont_ccallback);
    (m_metafont_comment, None);
    (m_metafont_string, None);
    (Aug [All (mkAction 62503 [Entity (-1)])] m_newline, Some a_metafont_ccallback);
    (Aug [All (mkAction 62504 [Entity 3])] (NotChr r_space), Some a_metafont_ccallback)].

(** metafont.rl:61 *)
Definition a_metafont_ecallback : action := mkAction 62002 [Report "METAFONT_LANG" ["space"; "comment"; "string"; "any"]].

(** metafont.rl:66-66 *)
Definition m_metafont_comment_entity : rx :=
  cats (Lit (bytes "%")) [Star m_nonnewline].

(** metafont.rl:68-73 *)
Definition i_metafont_entity : instance :=
  Scanner [
    (Aug [All (mkAction 62505 [Entity 0])] (Plus r_space), Some a_metafont_ecallback);
    (Aug [All (mkAction 62506 [Entity 1])] m_metafont_comment_entity, Some a_metafont_ecallback);
    (NotChr r_space, None)].

Definition the_parser : parser := mkParser [i_metafont_line] "METAFONT_LANG".
Definition the_entities : parser := mkParser [i_metafont_entity] "METAFONT_LANG".
