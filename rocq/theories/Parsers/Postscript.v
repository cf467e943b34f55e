(** Transcription of /repo/src/parsers/postscript.rl: the line counting machine and the
    entity machine (written by tools/ragel/gen.py). *)
From Coq Require Import ZArith String List.
From Verif Require Import Base RagelSyntax.
From Verif.Parsers Require Import Common.
Import ListNotations.
Open Scope string_scope.
Open Scope Z_scope.
Open Scope list_scope.

(** postscript.rl:29 *)
Definition a_postscript_ccallback : action := mkAction 81001 [Switch [(0, Mls); (3, Mcode); ((-2), Minl "POSTSCRIPT_LANG"); ((-1), Mnl "POSTSCRIPT_LANG")]].

(** postscript.rl:45-45 *)
Definition m_postscript_comment : rx :=
  cats (Aug [Finish a_comment] (Lit (bytes "%"))) [Star m_nonnewline].

(** postscript.rl:47-47 *)
Definition m_postscript_string : rx :=
  cats (Aug [Finish a_code] (Lit (bytes "("))) [Star (NCls [(10, 10); (12, 13)]); Lit (bytes ")")].

(** postscript.rl:49-55 *)
Definition i_postscript_line : instance :=
  Scanner [
    (Aug [All (mkAction 81501 [Entity 0])] m_spaces, Some a_postscript_ccallback);
    (m_postscript_comment, None);
    (m_postscript_string, None);
    (Aug [All (mkAction 81502 [Entity (-1)])] m_newline, Some a_postscript_ccallback);
    (Aug [All (mkAction 81503 [Entity 3])] (NotChr r_space), Some a_postscript_ccallback)].

(** postscript.rl:59 *)
Definition a_postscript_ecallback : action := mkAction 81002 [Report "POSTSCRIPT_LANG" ["space"; "comment"; "string"; "any"]].

(** postscript.rl:64-64 *)
Definition m_postscript_comment_entity : rx :=
  cats (Lit (bytes "%")) [Star m_nonnewline].

(** postscript.rl:66-71 *)
Definition i_postscript_entity : instance :=
  Scanner [
    (Aug [All (mkAction 81504 [Entity 0])] (Plus r_space), Some a_postscript_ecallback);
    (Aug [All (mkAction 81505 [Entity 1])] m_postscript_comment_entity, Some a_postscript_ecallback);
    (NotChr r_space, None)].

Definition the_parser : parser := mkParser [i_postscript_line] "POSTSCRIPT_LANG".
Definition the_entities : parser := mkParser [i_postscript_entity] "POSTSCRIPT_LANG".
