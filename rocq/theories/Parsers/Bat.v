(** Transcription of /repo/src/parsers/bat.rl: the line counting machine and the
    entity machine (written by tools/ragel/gen.py). *)
From Coq Require Import ZArith String List.
From Verif Require Import Base RagelSyntax.
From Verif.Parsers Require Import Common.
Import ListNotations.
Open Scope string_scope.
Open Scope Z_scope.
Open Scope list_scope.

(** bat.rl:31 *)
Definition a_bat_ccallback : action := mkAction 9001 [Switch [(0, Mls); (3, Mcode); ((-2), Minl "BAT_LANG"); ((-1), Mnl "BAT_LANG")]].

(** bat.rl:47-47 *)
Definition m_bat_comment : rx :=
  cats (Aug [Finish a_comment] (alts (LitI (bytes "rem")) [LitI (bytes "@rem"); Lit (bytes "::")])) [
    Star m_nonnewline].

(** bat.rl:49-54 *)
Definition i_bat_line : instance :=
  Scanner [
    (Aug [All (mkAction 9501 [Entity 0])] m_spaces, Some a_bat_ccallback);
    (m_bat_comment, None);
    (Aug [All (mkAction 9502 [Entity (-1)])] m_newline, Some a_bat_ccallback);
    (Aug [All (mkAction 9503 [Entity 3])] (NotChr r_space), Some a_bat_ccallback)].

(** bat.rl:58 *)
Definition a_bat_ecallback : action := mkAction 9002 [Report "BAT_LANG" ["space"; "comment"; "string"; "any"]].

(** bat.rl:62-62 *)
Definition m_bat_comment_entity : rx :=
  cats (alts (LitI (bytes "rem")) [LitI (bytes "@rem"); Lit (bytes "::")]) [Star m_nonnewline].

(** bat.rl:64-69 *)
Definition i_bat_entity : instance :=
  Scanner [
    (Aug [All (mkAction 9504 [Entity 0])] (Plus r_space), Some a_bat_ecallback);
    (Aug [All (mkAction 9505 [Entity 1])] m_bat_comment_entity, Some a_bat_ecallback);
    (NotChr r_space, None)].

Definition the_parser : parser := mkParser [i_bat_line] "BAT_LANG".
Definition the_entities : parser := mkParser [i_bat_entity] "BAT_LANG".
