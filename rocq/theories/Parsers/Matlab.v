(** Transcription of /repo/src/parsers/matlab.rl: the line counting machine and the
    entity machine (written by tools/ragel/gen.py). *)
From Coq Require Import ZArith String List.
From Verif Require Import Base RagelSyntax.
From Verif.Parsers Require Import Common.
Import ListNotations.
Open Scope string_scope.
Open Scope Z_scope.
Open Scope list_scope.

(** matlab.rl:31 *)
Definition a_matlab_ccallback : action := mkAction 61001 [Switch [(0, Mls); (3, Mcode); ((-2), Minl "MATLAB_LANG"); ((-1), Mnl "MATLAB_LANG")]].

(** matlab.rl:48-48 *)
Definition m_matlab_line_comment : rx :=
  cats (Aug [Finish a_comment] (cats (alts (Lit (bytes "%")) [Lit (bytes "...")]) [
      Aug [Finish (mkAction 61501 [Hold])] (NCls [(123, 123)])])) [
    Star m_nonnewline].

(** matlab.rl:49-56 *)
Definition m_matlab_block_comment : rx :=
  CatFin (cats (Aug [Finish a_comment] (Lit (bytes "%{"))) [
    Star (alts (Aug [Leave (mkAction 61502 [Entity (-2)]); Leave a_matlab_ccallback] m_newline) [
      m_ws;
      Aug [Finish a_code] (Diff m_nonnewline m_ws)])]) (Lit (bytes "%}")).

(** matlab.rl:57-57 *)
Definition m_matlab_comment : rx :=
  alts m_matlab_line_comment [m_matlab_block_comment].

(** matlab.rl:61-61 *)
Definition m_matlab_sq_str : rx :=
  cats (Aug [Finish a_code] (Lit (bytes "'"))) [
    Star (alts (NCls [(10, 10); (12, 13); (39, 39); (92, 92)]) [cats (Lit (bytes "\")) [m_nonnewline]]);
    Lit (bytes "'")].

(** matlab.rl:62-62 *)
Definition m_matlab_dq_str : rx :=
  cats (Aug [Finish a_code] (Lit (bytes """"))) [
    Star (alts (NCls [(10, 10); (12, 13); (34, 34); (92, 92)]) [cats (Lit (bytes "\")) [m_nonnewline]]);
    Lit (bytes """")].

(** matlab.rl:63-63 *)
Definition m_matlab_string : rx :=
  alts m_matlab_sq_str [m_matlab_dq_str].

(** matlab.rl:65-71 *)
Definition i_matlab_line : instance :=
  Scanner [
    (Aug [All (mkAction 61503 [Entity 0])] m_spaces, Some a_matlab_ccallback);
    (m_matlab_comment, None);
    (m_matlab_string, None);
    (Aug [All (mkAction 61504 [Entity (-1)])] m_newline, Some a_matlab_ccallback);
    (Aug [All (mkAction 61505 [Entity 3])] (NotChr r_space), Some a_matlab_ccallback)].

(** matlab.rl:75 *)
Definition a_matlab_ecallback : action := mkAction 61002 [Report "MATLAB_LANG" ["space"; "comment"; "string"; "any"]].

(** matlab.rl:80-80 *)
Definition m_matlab_line_comment_entity : rx :=
  cats (alts (Lit (bytes "%")) [Lit (bytes "...")]) [
    Aug [Finish (mkAction 61506 [Hold])] (NCls [(123, 123)]);
    Star m_nonnewline].

(** matlab.rl:81-81 *)
Definition m_matlab_block_comment_entity : rx :=
  CatFin (cats (Lit (bytes "%{")) [Star r_any]) (Lit (bytes "%}")).

(** matlab.rl:82-83 *)
Definition m_matlab_comment_entity : rx :=
  alts m_matlab_line_comment_entity [m_matlab_block_comment_entity].

(** matlab.rl:85-90 *)
Definition i_matlab_entity : instance :=
  Scanner [
    (Aug [All (mkAction 61507 [Entity 0])] (Plus r_space), Some a_matlab_ecallback);
    (Aug [All (mkAction 61508 [Entity 1])] m_matlab_comment_entity, Some a_matlab_ecallback);
    (NotChr r_space, None)].

Definition the_parser : parser := mkParser [i_matlab_line] "MATLAB_LANG".
Definition the_entities : parser := mkParser [i_matlab_entity] "MATLAB_LANG".
