(** Transcription of /repo/src/parsers/blitzmax.rl: the line counting machine and the
    entity machine (written by tools/ragel/gen.py). *)
From Coq Require Import ZArith String List.
From Verif Require Import Base RagelSyntax.
From Verif.Parsers Require Import Common.
Import ListNotations.
Open Scope string_scope.
Open Scope Z_scope.
Open Scope list_scope.

(** blitzmax.rl:31 *)
Definition a_blitzmax_ccallback : action := mkAction 11001 [Switch [(0, Mls); (3, Mcode); ((-2), Minl "BLITZMAX_LANG"); ((-1), Mnl "BLITZMAX_LANG")]].

(** blitzmax.rl:47-47 *)
Definition m_blitzmax_line_comment : rx :=
  cats (Aug [Finish a_comment] (Lit (bytes "'"))) [Star m_nonnewline].

(** blitzmax.rl:48-55 *)
Definition m_blitzmax_rem_block_comment : rx :=
  CatFin (cats (Aug [Finish a_comment] (LitI (bytes "rem"))) [
    Star (alts (Aug [Leave (mkAction 11501 [Entity (-2)]); Leave a_blitzmax_ccallback] m_newline) [
      m_ws;
      Aug [Finish a_comment] (Diff m_nonnewline m_ws)])]) (alts (LitI (bytes "end rem")) [LitI (bytes "endrem")]).

(** blitzmax.rl:57-57 *)
Definition m_blitzmax_comment : rx :=
  alts m_blitzmax_line_comment [m_blitzmax_rem_block_comment].

(** blitzmax.rl:59-59 *)
Definition m_blitzmax_string : rx :=
  cats (Aug [Finish a_code] (Lit (bytes """"))) [
    Star (alts (NCls [(10, 10); (12, 13); (34, 34); (92, 92)]) [cats (Lit (bytes "\")) [m_nonnewline]]);
    Lit (bytes """")].

(** blitzmax.rl:61-67 *)
Definition i_blitzmax_line : instance :=
  Scanner [
    (Aug [All (mkAction 11502 [Entity 0])] m_spaces, Some a_blitzmax_ccallback);
    (m_blitzmax_comment, None);
    (m_blitzmax_string, None);
    (Aug [All (mkAction 11503 [Entity (-1)])] m_newline, Some a_blitzmax_ccallback);
    (Aug [All (mkAction 11504 [Entity 3])] (NotChr r_space), Some a_blitzmax_ccallback)].

(** blitzmax.rl:71 *)
Definition a_blitzmax_ecallback : action := mkAction 11002 [Report "BLITZMAX_LANG" ["space"; "comment"; "string"; "any"]].

(** blitzmax.rl:76-76 *)
Definition m_blitzmax_line_comment_entity : rx :=
  cats (Lit (bytes "'")) [Star m_nonnewline].

(** blitzmax.rl:86-86 *)
Definition m_blitzmax_comment_entity : rx :=
  alts m_blitzmax_line_comment_entity [m_blitzmax_line_comment_entity].

(** blitzmax.rl:88-93 *)
Definition i_blitzmax_entity : instance :=
  Scanner [
    (Aug [All (mkAction 11506 [Entity 0])] (Plus r_space), Some a_blitzmax_ecallback);
    (Aug [All (mkAction 11507 [Entity 1])] m_blitzmax_comment_entity, Some a_blitzmax_ecallback);
    (NotChr r_space, None)].

Definition the_parser : parser := mkParser [i_blitzmax_line] "BLITZMAX_LANG".
Definition the_entities : parser := mkParser [i_blitzmax_entity] "BLITZMAX_LANG".
