(** Transcription of /repo/src/parsers/r.rl: the line counting machine and the
    entity machine (written by tools/ragel/gen.py). *)
From Coq Require Import ZArith String List.
From Verif Require Import Base RagelSyntax.
From Verif.Parsers Require Import Common.
Import ListNotations.
Open Scope string_scope.
Open Scope Z_scope.
Open Scope list_scope.

(** r.rl:31 *)
Definition a_r_ccallback : action := mkAction 86001 [Switch [(0, Mls); (3, Mcode); ((-2), Minl "R_LANG"); ((-1), Mnl "R_LANG")]].

(** r.rl:47-47 *)
Definition m_r_line_comment : rx :=
  cats (Aug [Finish a_comment] (Lit (bytes "#"))) [Star m_nonnewline].

(** r.rl:48-48 *)
Definition m_r_comment : rx :=
  m_r_line_comment.

(** r.rl:50-50 *)
Definition m_r_sq_str : rx :=
  cats (Aug [Finish a_code] (Lit (bytes "'"))) [
    Star (alts (NCls [(10, 10); (12, 13); (39, 39); (92, 92)]) [cats (Lit (bytes "\")) [m_nonnewline]]);
    Lit (bytes "'")].

(** r.rl:51-51 *)
Definition m_r_dq_str : rx :=
  cats (Aug [Finish a_code] (Lit (bytes """"))) [
    Star (alts (NCls [(10, 10); (12, 13); (34, 34); (92, 92)]) [cats (Lit (bytes "\")) [m_nonnewline]]);
    Lit (bytes """")].

(** r.rl:52-52 *)
Definition m_r_string : rx :=
  alts m_r_sq_str [m_r_dq_str].

(** r.rl:54-60 *)
Definition i_r_line : instance :=
  Scanner [
    (Aug [All (mkAction 86501 [Entity 0])] m_spaces, Some a_r_ccallback);
    (m_r_comment, None);
    (m_r_string, None);
    (Aug [All (mkAction 86502 [Entity (-1)])] m_newline, Some a_r_ccallback);
    (Aug [All (mkAction 86503 [Entity 3])] (NotChr r_space), Some a_r_ccallback)].

(** r.rl:64 *)
Definition a_r_ecallback : action := mkAction 86002 [Report "R_LANG" ["space"; "comment"; "string"; "any"]].

(** r.rl:68-68 *)
Definition m_r_line_comment_entity : rx :=
  cats (Lit (bytes "#")) [Star m_nonnewline].

(** r.rl:69-69 *)
Definition m_r_comment_entity : rx :=
  m_r_line_comment_entity.

(** r.rl:71-76 *)
Definition i_r_entity : instance :=
  Scanner [
    (Aug [All (mkAction 86504 [Entity 0])] (Plus r_space), Some a_r_ecallback);
    (Aug [All (mkAction 86505 [Entity 1])] m_r_comment_entity, Some a_r_ecallback);
    (NotChr r_space, None)].

Definition the_parser : parser := mkParser [i_r_line] "R_LANG".
Definition the_entities : parser := mkParser [i_r_entity] "R_LANG".
