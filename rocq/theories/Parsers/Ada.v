(** Transcription of /repo/src/parsers/ada.rl: the line counting machine and the
    entity machine (written by tools/ragel/gen.py). *)
From Coq Require Import ZArith String List.
From Verif Require Import Base RagelSyntax.
From Verif.Parsers Require Import Common.
Import ListNotations.
Open Scope string_scope.
Open Scope Z_scope.
Open Scope list_scope.

(** ada.rl:31 *)
Definition a_ada_ccallback : action := mkAction 2001 [Switch [(0, Mls); (3, Mcode); ((-2), Minl "ADA_LANG"); ((-1), Mnl "ADA_LANG")]].

(** ada.rl:47-47 *)
Definition m_ada_comment : rx :=
  cats (Aug [Finish a_comment] (Lit (bytes "--"))) [Star m_nonnewline].

(** ada.rl:49-49 *)
Definition m_ada_string : rx :=
  cats (Aug [Finish a_code] (Lit (bytes """"))) [
    Star (NCls [(10, 10); (12, 13); (34, 34)]);
    Lit (bytes """")].

(** ada.rl:51-57 *)
Definition i_ada_line : instance :=
  Scanner [
    (Aug [All (mkAction 2501 [Entity 0])] m_spaces, Some a_ada_ccallback);
    (m_ada_comment, None);
    (m_ada_string, None);
    (Aug [All (mkAction 2502 [Entity (-1)])] m_newline, Some a_ada_ccallback);
    (Aug [All (mkAction 2503 [Entity 3])] (NotChr r_space), Some a_ada_ccallback)].

(** ada.rl:61 *)
Definition a_ada_ecallback : action := mkAction 2002 [Report "ADA_LANG" ["space"; "comment"; "string"; "any"]].

(** ada.rl:65-65 *)
Definition m_ada_comment_entity : rx :=
  cats (Lit (bytes "--")) [Star m_nonnewline].

(** ada.rl:67-72 *)
Definition i_ada_entity : instance :=
  Scanner [
    (Aug [All (mkAction 2504 [Entity 0])] (Plus r_space), Some a_ada_ecallback);
    (Aug [All (mkAction 2505 [Entity 1])] m_ada_comment_entity, Some a_ada_ecallback);
    (NotChr r_space, None)].

Definition the_parser : parser := mkParser [i_ada_line] "ADA_LANG".
Definition the_entities : parser := mkParser [i_ada_entity] "ADA_LANG".
