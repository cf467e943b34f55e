(** Transcription of /repo/src/parsers/brainfuck.rl: the line counting machine and the
    entity machine (written by tools/ragel/gen.py). *)
From Coq Require Import ZArith String List.
From Verif Require Import Base RagelSyntax.
From Verif.Parsers Require Import Common.
Import ListNotations.
Open Scope string_scope.
Open Scope Z_scope.
Open Scope list_scope.

(** brainfuck.rl:31 *)
Definition a_brainfuck_ccallback : action := mkAction 13001 [Switch [(0, Mls); (2, Mcode); (1, Mcomment); ((-2), Minl "BRAINFUCK_LANG"); ((-1), Mnl "BRAINFUCK_LANG")]].

(** brainfuck.rl:50-50 *)
Definition m_brainfuck_operator : rx :=
  Aug [Finish a_code] (Cls [(43, 46); (60, 60); (62, 62); (91, 91); (93, 93)]).

(** brainfuck.rl:52-57 *)
Definition i_brainfuck_line : instance :=
  Scanner [
    (Aug [All (mkAction 13501 [Entity 0])] m_spaces, Some a_brainfuck_ccallback);
    (Aug [All (mkAction 13502 [Entity (-1)])] m_newline, Some a_brainfuck_ccallback);
    (Aug [All (mkAction 13503 [Entity 2])] m_brainfuck_operator, Some a_brainfuck_ccallback);
    (Aug [All (mkAction 13504 [Entity 1])] (NotChr r_space), Some a_brainfuck_ccallback)].

(** brainfuck.rl:61 *)
Definition a_brainfuck_ecallback : action := mkAction 13002 [Report "BRAINFUCK_LANG" ["space"; "comment"; "operator"]].

(** brainfuck.rl:65-65 *)
Definition m_brainfuck_operator_entity : rx :=
  Cls [(43, 46); (60, 60); (62, 62); (91, 91); (93, 93)].

(** brainfuck.rl:67-67 *)
Definition m_brainfuck_comment_entity : rx :=
  NotStr (alts r_space [m_brainfuck_operator_entity]).

(** brainfuck.rl:69-73 *)
Definition i_brainfuck_entity : instance :=
  Scanner [
    (Aug [All (mkAction 13505 [Entity 0])] (Plus r_space), Some a_brainfuck_ecallback);
    (Aug [All (mkAction 13506 [Entity 2])] m_brainfuck_operator_entity, Some a_brainfuck_ecallback);
    (Aug [All (mkAction 13507 [Entity 1])] m_brainfuck_comment_entity, Some a_brainfuck_ecallback)].

Definition the_parser : parser := mkParser [i_brainfuck_line] "BRAINFUCK_LANG".
Definition the_entities : parser := mkParser [i_brainfuck_entity] "BRAINFUCK_LANG".
