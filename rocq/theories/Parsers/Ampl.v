(** Transcription of /repo/src/parsers/ampl.rl: the line counting machine and the
    entity machine (written by tools/ragel/gen.py). *)
From Coq Require Import ZArith String List.
From Verif Require Import Base RagelSyntax.
From Verif.Parsers Require Import Common.
Import ListNotations.
Open Scope string_scope.
Open Scope Z_scope.
Open Scope list_scope.

(** ampl.rl:31 *)
Definition a_ampl_ccallback : action := mkAction 3001 [Switch [(0, Mls); (2, Mcode); ((-2), Minl "AMPL_LANG"); ((-1), Mnl "AMPL_LANG")]].

(** ampl.rl:47-47 *)
Definition m_ampl_line_comment : rx :=
  cats (Aug [Finish a_comment] (Lit (bytes "#"))) [Star m_nonnewline].

(** ampl.rl:48-55 *)
Definition m_ampl_block_comment : rx :=
  CatFin (cats (Aug [Finish a_comment] (Lit (bytes "/*"))) [
    Star (alts (Aug [Leave (mkAction 3501 [Entity (-2)]); Leave a_ampl_ccallback] m_newline) [
      m_ws;
      Aug [Finish a_comment] (Diff m_nonnewline m_ws)])]) (Lit (bytes "*/")).

(** ampl.rl:56-56 *)
Definition m_ampl_comment : rx :=
  alts m_ampl_line_comment [m_ampl_block_comment].

(** ampl.rl:58-63 *)
Definition i_ampl_line : instance :=
  Scanner [
    (Aug [All (mkAction 3502 [Entity 0])] m_spaces, Some a_ampl_ccallback);
    (m_ampl_comment, None);
    (Aug [All (mkAction 3503 [Entity (-1)])] m_newline, Some a_ampl_ccallback);
    (Aug [All (mkAction 3504 [Entity 2])] (NotChr r_space), Some a_ampl_ccallback)].

(** ampl.rl:67 *)
Definition a_ampl_ecallback : action := mkAction 3002 [Report "AMPL_LANG" ["space"; "comment"; "any"]].

(** ampl.rl:71-71 *)
Definition m_ampl_line_comment_entity : rx :=
  cats (Lit (bytes "#")) [Star m_nonnewline].

(** ampl.rl:72-72 *)
Definition m_ampl_block_comment_entity : rx :=
  CatFin (cats (Lit (bytes "/*")) [Star r_any]) (Lit (bytes "*/")).

(** ampl.rl:73-74 *)
Definition m_ampl_comment_entity : rx :=
  alts m_ampl_line_comment_entity [m_ampl_block_comment_entity].

(** ampl.rl:76-80 *)
Definition i_ampl_entity : instance :=
  Scanner [
    (Aug [All (mkAction 3505 [Entity 0])] (Plus r_space), Some a_ampl_ecallback);
    (Aug [All (mkAction 3506 [Entity 1])] m_ampl_comment_entity, Some a_ampl_ecallback);
    (NotChr r_space, None)].

Definition the_parser : parser := mkParser [i_ampl_line] "AMPL_LANG".
Definition the_entities : parser := mkParser [i_ampl_entity] "AMPL_LANG".
