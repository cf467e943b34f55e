(** Transcription of /repo/src/parsers/metapost.rl: the line counting machine and the
    entity machine (written by tools/ragel/gen.py). *)
From Coq Require Import ZArith String List.
From Verif Require Import Base RagelSyntax.
From Verif.Parsers Require Import Common.
Import ListNotations.
Open Scope string_scope.
Open Scope Z_scope.
Open Scope list_scope.

(** metapost.rl:31 *)
Definition a_metapost_ccallback : action := mkAction 63001 [Switch [(0, Mls); (3, Mcode); ((-2), Minl "METAPOST_LANG"); ((-1), Mnl "METAPOST_LANG")]].

(** metapost.rl:47-47 *)
Definition m_metapost_comment : rx :=
  cats (Aug [Finish (mkAction 63501 [Hold]); Finish a_comment] (Lit (bytes "%"))) [
    Star m_nonnewline].

(** metapost.rl:49-49 *)
Definition m_metapost_string : rx :=
  cats (Aug [Finish a_code] (Lit (bytes """"))) [
    Star (alts (NCls [(10, 10); (12, 13); (34, 34); (92, 92)]) [cats (Lit (bytes "\")) [m_nonnewline]]);
    Lit (bytes """")].

(** metapost.rl:51-57 *)
Definition i_metapost_line : instance :=
  Scanner [
    (Aug [All (mkAction 63502 [Entity 0])] m_spaces, Some a_metapost_ccallback);
    (m_metapost_comment, None);
    (m_metapost_string, None);
    (Aug [All (mkAction 63503 [Entity (-1)])] m_newline, Some a_metapost_ccallback);
    (Aug [All (mkAction 63504 [Entity 3])] (NotChr r_space), Some a_metapost_ccallback)].

(** metapost.rl:61 *)
Definition a_metapost_ecallback : action := mkAction 63002 [Report "METAPOST_LANG" ["space"; "comment"; "string"; "any"]].

(** metapost.rl:66-66 *)
Definition m_metapost_comment_entity : rx :=
  cats (Lit (bytes "%")) [Star m_nonnewline].

(** metapost.rl:68-73 *)
Definition i_metapost_entity : instance :=
  Scanner [
    (Aug [All (mkAction 63505 [Entity 0])] (Plus r_space), Some a_metapost_ecallback);
    (Aug [All (mkAction 63506 [Entity 1])] m_metapost_comment_entity, Some a_metapost_ecallback);
    (NotChr r_space, None)].

Definition the_parser : parser := mkParser [i_metapost_line] "METAPOST_LANG".
Definition the_entities : parser := mkParser [i_metapost_entity] "METAPOST_LANG".
