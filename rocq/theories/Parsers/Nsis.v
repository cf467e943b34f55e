(** Transcription of /repo/src/parsers/nsis.rl: the line counting machine and the
    entity machine (written by tools/ragel/gen.py). *)
From Coq Require Import ZArith String List.
From Verif Require Import Base RagelSyntax.
From Verif.Parsers Require Import Common.
Import ListNotations.
Open Scope string_scope.
Open Scope Z_scope.
Open Scope list_scope.

(** nsis.rl:31 *)
Definition a_nsis_ccallback : action := mkAction 70001 [Switch [(0, Mls); (3, Mcode); ((-2), Minl "NSIS_LANG"); ((-1), Mnl "NSIS_LANG")]].

(** nsis.rl:47-47 *)
Definition m_nsis_line_comment : rx :=
  cats (Aug [Finish a_comment] (alts (Lit (bytes "#")) [Lit (bytes ";")])) [Star m_nonnewline].

(** nsis.rl:48-55 *)
Definition m_nsis_block_comment : rx :=
  CatFin (cats (Aug [Finish a_comment] (Lit (bytes "/*"))) [
    Star (alts (Aug [Leave (mkAction 70501 [Entity (-2)]); Leave a_nsis_ccallback] m_newline) [
      m_ws;
      Aug [Finish a_comment] (Diff m_nonnewline m_ws)])]) (Lit (bytes "*/")).

(** nsis.rl:56-56 *)
Definition m_nsis_comment : rx :=
  alts m_nsis_line_comment [m_nsis_block_comment].

(** nsis.rl:58-58 *)
Definition m_nsis_bt_str : rx :=
  cats (Aug [Finish a_code] (Lit (bytes "`"))) [
    Star (alts (NCls [(10, 10); (12, 13); (92, 92); (96, 96)]) [cats (Lit (bytes "\")) [m_nonnewline]]);
    Lit (bytes "`")].

(** nsis.rl:59-59 *)
Definition m_nsis_sq_str : rx :=
  cats (Aug [Finish a_code] (Lit (bytes "'"))) [
    Star (alts (NCls [(10, 10); (12, 13); (39, 39); (92, 92)]) [cats (Lit (bytes "\")) [m_nonnewline]]);
    Lit (bytes "'")].

(** nsis.rl:60-60 *)
Definition m_nsis_dq_str : rx :=
  cats (Aug [Finish a_code] (Lit (bytes """"))) [
    Star (alts (NCls [(10, 10); (12, 13); (34, 34); (92, 92)]) [cats (Lit (bytes "\")) [m_nonnewline]]);
    Lit (bytes """")].

(** nsis.rl:61-61 *)
Definition m_nsis_string : rx :=
  alts m_nsis_bt_str [m_nsis_sq_str; m_nsis_dq_str].

(** nsis.rl:63-69 *)
Definition i_nsis_line : instance :=
  Scanner [
    (Aug [All (mkAction 70502 [Entity 0])] m_spaces, Some a_nsis_ccallback);
    (m_nsis_comment, None);
    (m_nsis_string, None);
    (Aug [All (mkAction 70503 [Entity (-1)])] m_newline, Some a_nsis_ccallback);
    (Aug [All (mkAction 70504 [Entity 3])] (NotChr r_space), Some a_nsis_ccallback)].

(** nsis.rl:73 *)
Definition a_nsis_ecallback : action := mkAction 70002 [Report "NSIS_LANG" ["space"; "comment"; "string"; "any"]].

(** nsis.rl:77-77 *)
Definition m_nsis_line_comment_entity : rx :=
  cats (alts (Lit (bytes "#")) [Lit (bytes "//")]) [Star m_nonnewline].

(** nsis.rl:78-78 *)
Definition m_nsis_block_comment_entity : rx :=
  CatFin (cats (Lit (bytes "/*")) [Star r_any]) (Lit (bytes "*/")).

(** nsis.rl:79-79 *)
Definition m_nsis_comment_entity : rx :=
  alts m_nsis_line_comment_entity [m_nsis_block_comment_entity].

(** nsis.rl:81-86 *)
Definition i_nsis_entity : instance :=
  Scanner [
    (Aug [All (mkAction 70505 [Entity 0])] (Plus r_space), Some a_nsis_ecallback);
    (Aug [All (mkAction 70506 [Entity 1])] m_nsis_comment_entity, Some a_nsis_ecallback);
    (NotChr r_space, None)].

Definition the_parser : parser := mkParser [i_nsis_line] "NSIS_LANG".
Definition the_entities : parser := mkParser [i_nsis_entity] "NSIS_LANG".
