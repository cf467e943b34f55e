(** Transcription of /repo/src/parsers/eiffel.rl: the line counting machine and the
    entity machine (written by tools/ragel/gen.py). *)
From Coq Require Import ZArith String List.
From Verif Require Import Base RagelSyntax.
From Verif.Parsers Require Import Common.
Import ListNotations.
Open Scope string_scope.
Open Scope Z_scope.
Open Scope list_scope.

(** eiffel.rl:29 *)
Definition a_eiffel_ccallback : action := mkAction 30001 [Switch [(0, Mls); (3, Mcode); ((-2), Minl "EIFFEL_LANG"); ((-1), Mnl "EIFFEL_LANG")]].

(** eiffel.rl:45-45 *)
Definition m_eiffel_comment : rx :=
  cats (Aug [Finish a_comment] (Lit (bytes "--"))) [Star m_nonnewline].

(** eiffel.rl:47-47 *)
Definition m_eiffel_string : rx :=
  cats (Aug [Finish a_code] (Lit (bytes """"))) [
    Star (NCls [(10, 10); (12, 13); (34, 34)]);
    Lit (bytes """")].

(** eiffel.rl:49-55 *)
Definition i_eiffel_line : instance :=
  Scanner [
    (Aug [All (mkAction 30501 [Entity 0])] m_spaces, Some a_eiffel_ccallback);
    (m_eiffel_comment, None);
    (m_eiffel_string, None);
    (Aug [All (mkAction 30502 [Entity (-1)])] m_newline, Some a_eiffel_ccallback);
    (Aug [All (mkAction 30503 [Entity 3])] (NotChr r_space), Some a_eiffel_ccallback)].

(** eiffel.rl:59 *)
Definition a_eiffel_ecallback : action := mkAction 30002 [Report "EIFFEL_LANG" ["space"; "comment"; "string"; "any"]].

(** eiffel.rl:64-64 *)
Definition m_eiffel_comment_entity : rx :=
  cats (Lit (bytes "--")) [Star m_nonnewline].

(** eiffel.rl:66-71 *)
Definition i_eiffel_entity : instance :=
  Scanner [
    (Aug [All (mkAction 30504 [Entity 0])] (Plus r_space), Some a_eiffel_ecallback);
    (Aug [All (mkAction 30505 [Entity 1])] m_eiffel_comment_entity, Some a_eiffel_ecallback);
    (NotChr r_space, None)].

Definition the_parser : parser := mkParser [i_eiffel_line] "EIFFEL_LANG".
Definition the_entities : parser := mkParser [i_eiffel_entity] "EIFFEL_LANG".
