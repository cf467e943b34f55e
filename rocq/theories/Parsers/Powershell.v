(** Transcription of /repo/src/parsers/powershell.rl: the line counting machine and the
    entity machine (written by tools/ragel/gen.py). *)
From Coq Require Import ZArith String List.
From Verif Require Import Base RagelSyntax.
From Verif.Parsers Require Import Common.
Import ListNotations.
Open Scope string_scope.
Open Scope Z_scope.
Open Scope list_scope.

(** powershell.rl:29 *)
Definition a_powershell_ccallback : action := mkAction 82001 [Switch [(0, Mls); (3, Mcode); ((-2), Minl "POWERSHELL_LANG"); ((-1), Mnl "POWERSHELL_LANG")]].

(** powershell.rl:45-45 *)
Definition m_powershell_line_comment : rx :=
  cats (Aug [Finish a_comment] (Lit (bytes "#"))) [Star m_nonnewline].

(** powershell.rl:46-53 *)
Definition m_powershell_block_comment : rx :=
  CatFin (cats (Aug [Finish a_comment] (Lit (bytes "<#"))) [
    Star (alts (Aug [Leave (mkAction 82501 [Entity (-2)]); Leave a_powershell_ccallback] m_newline) [
      m_ws;
      Aug [Finish a_comment] (Diff m_nonnewline m_ws)])]) (Lit (bytes "#>")).

(** powershell.rl:54-54 *)
Definition m_powershell_comment : rx :=
  alts m_powershell_line_comment [m_powershell_block_comment].

(** powershell.rl:56-67 *)
Definition m_powershell_sq_str : rx :=
  cats (Aug [Finish a_enqueue; Finish a_code] (Lit (bytes "'"))) [
    Star (alts (Aug [Leave (mkAction 82502 [Entity (-2)]); Leave a_powershell_ccallback] m_newline) [
      cats (Lit (bytes "\")) [
        Aug [Leave (mkAction 82503 [Entity (-2)]); Leave a_powershell_ccallback] m_newline];
      m_ws;
      Aug [Finish a_code] (NCls [(9, 10); (12, 13); (32, 32); (39, 39); (92, 92)]);
      cats (Lit (bytes "\")) [Aug [Finish a_code] m_nonnewline]]);
    Aug [Finish a_commit] (Lit (bytes "'"))].

(** powershell.rl:68-79 *)
Definition m_powershell_dq_str : rx :=
  cats (Aug [Finish a_enqueue; Finish a_code] (Lit (bytes """"))) [
    Star (alts (Aug [Leave (mkAction 82504 [Entity (-2)]); Leave a_powershell_ccallback] m_newline) [
      cats (Lit (bytes "\")) [
        Aug [Leave (mkAction 82505 [Entity (-2)]); Leave a_powershell_ccallback] m_newline];
      m_ws;
      Aug [Finish a_code] (NCls [(9, 10); (12, 13); (32, 32); (34, 34); (92, 92)]);
      cats (Lit (bytes "\")) [Aug [Finish a_code] m_nonnewline]]);
    Aug [Finish a_commit] (Lit (bytes """"))].

(** powershell.rl:81-81 *)
Definition m_powershell_string : rx :=
  alts m_powershell_sq_str [m_powershell_dq_str].

(** powershell.rl:83-89 *)
Definition i_powershell_line : instance :=
  Scanner [
    (Aug [All (mkAction 82506 [Entity 0])] m_spaces, Some a_powershell_ccallback);
    (m_powershell_comment, None);
    (m_powershell_string, None);
    (Aug [All (mkAction 82507 [Entity (-1)])] m_newline, Some a_powershell_ccallback);
    (Aug [All (mkAction 82508 [Entity 3])] (NotChr r_space), Some a_powershell_ccallback)].

(** powershell.rl:93 *)
Definition a_powershell_ecallback : action := mkAction 82002 [Report "POWERSHELL_LANG" ["space"; "comment"; "string"; "any"]].

(** powershell.rl:97-97 *)
Definition m_powershell_line_comment_entity : rx :=
  cats (Lit (bytes "#")) [Star m_nonnewline].

(** powershell.rl:98-98 *)
Definition m_powershell_block_comment_entity : rx :=
  CatFin (cats (Lit (bytes "<#")) [Star r_any]) (Lit (bytes "#>")).

(** powershell.rl:99-99 *)
Definition m_powershell_comment_entity : rx :=
  alts m_powershell_line_comment_entity [m_powershell_block_comment_entity].

(** powershell.rl:101-106 *)
Definition i_powershell_entity : instance :=
  Scanner [
    (Aug [All (mkAction 82509 [Entity 0])] (Plus r_space), Some a_powershell_ecallback);
    (Aug [All (mkAction 82510 [Entity 1])] m_powershell_comment_entity, Some a_powershell_ecallback);
    (NotChr r_space, None)].

Definition the_parser : parser := mkParser [i_powershell_line] "POWERSHELL_LANG".
Definition the_entities : parser := mkParser [i_powershell_entity] "POWERSHELL_LANG".
