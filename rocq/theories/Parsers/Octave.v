(** Transcription of /repo/src/parsers/octave.rl: the line counting machine and the
    entity machine (written by tools/ragel/gen.py). *)
From Coq Require Import ZArith String List.
From Verif Require Import Base RagelSyntax.
From Verif.Parsers Require Import Common.
Import ListNotations.
Open Scope string_scope.
Open Scope Z_scope.
Open Scope list_scope.

(** octave.rl:31 *)
Definition a_octave_ccallback : action := mkAction 75001 [Switch [(0, Mls); (3, Mcode); ((-2), Minl "OCTAVE_LANG"); ((-1), Mnl "OCTAVE_LANG")]].

(** octave.rl:50-50 *)
Definition m_octave_line_comment : rx :=
  cats (Aug [Finish a_comment] (alts (cats (alts (Lit (bytes "%")) [Lit (bytes "...")]) [
        Aug [Finish (mkAction 75501 [Hold])] (NCls [(123, 123)])]) [
      Lit (bytes "#")])) [
    Star m_nonnewline].

(** octave.rl:51-58 *)
Definition m_octave_block_comment : rx :=
  CatFin (cats (Aug [Finish a_comment] (Lit (bytes "%{"))) [
    Star (alts (Aug [Leave (mkAction 75502 [Entity (-2)]); Leave a_octave_ccallback] m_newline) [
      m_ws;
      Aug [Finish a_code] (Diff m_nonnewline m_ws)])]) (Lit (bytes "%}")).

(** octave.rl:59-59 *)
Definition m_octave_comment : rx :=
  alts m_octave_line_comment [m_octave_block_comment].

(** octave.rl:61-61 *)
Definition m_octave_sq_str : rx :=
  cats (Aug [Finish a_code] (Lit (bytes "'"))) [
    Star (alts (NCls [(10, 10); (12, 13); (39, 39); (92, 92)]) [cats (Lit (bytes "\")) [m_nonnewline]]);
    Lit (bytes "'")].

(** octave.rl:62-62 *)
Definition m_octave_dq_str : rx :=
  cats (Aug [Finish a_code] (Lit (bytes """"))) [
    Star (alts (NCls [(10, 10); (12, 13); (34, 34); (92, 92)]) [cats (Lit (bytes "\")) [m_nonnewline]]);
    Lit (bytes """")].

(** octave.rl:63-63 *)
Definition m_octave_string : rx :=
  alts m_octave_sq_str [m_octave_dq_str].

(** octave.rl:65-71 *)
Definition i_octave_line : instance :=
  Scanner [
    (Aug [All (mkAction 75503 [Entity 0])] m_spaces, Some a_octave_ccallback);
    (m_octave_comment, None);
    (m_octave_string, None);
    (Aug [All (mkAction 75504 [Entity (-1)])] m_newline, Some a_octave_ccallback);
    (Aug [All (mkAction 75505 [Entity 3])] (NotChr r_space), Some a_octave_ccallback)].

(** octave.rl:75 *)
Definition a_octave_ecallback : action := mkAction 75002 [Report "OCTAVE_LANG" ["space"; "comment"; "string"; "any"]].

(** octave.rl:80-80 *)
Definition m_octave_line_comment_entity : rx :=
  cats (alts (cats (alts (Lit (bytes "%")) [Lit (bytes "...")]) [
        Aug [Finish (mkAction 75506 [Hold])] (NCls [(123, 123)])]) [
      Lit (bytes "#")]) [
    Star m_nonnewline].

(** octave.rl:81-81 *)
Definition m_octave_block_comment_entity : rx :=
  CatFin (cats (Lit (bytes "%{")) [Star r_any]) (Lit (bytes "%}")).

(** octave.rl:82-83 *)
Definition m_octave_comment_entity : rx :=
  alts m_octave_line_comment_entity [m_octave_block_comment_entity].

(** octave.rl:85-90 *)
Definition i_octave_entity : instance :=
  Scanner [
    (Aug [All (mkAction 75507 [Entity 0])] (Plus r_space), Some a_octave_ecallback);
    (Aug [All (mkAction 75508 [Entity 1])] m_octave_comment_entity, Some a_octave_ecallback);
    (NotChr r_space, None)].

Definition the_parser : parser := mkParser [i_octave_line] "OCTAVE_LANG".
Definition the_entities : parser := mkParser [i_octave_entity] "OCTAVE_LANG".
