(** Transcription of /repo/src/parsers/fortranfixed.rl: the line counting machine and the
    entity machine (written by tools/ragel/gen.py). *)
From Coq Require Import ZArith String List.
From Verif Require Import Base RagelSyntax.
From Verif.Parsers Require Import Common.
Import ListNotations.
Open Scope string_scope.
Open Scope Z_scope.
Open Scope list_scope.

(** fortranfixed.rl:31 *)
Definition a_ffixed_ccallback : action := mkAction 36001 [Switch [(0, Mls); (3, Mcode); ((-2), Minl "FORTRANFIXED_LANG"); ((-1), Mnl "FORTRANFIXED_LANG")]].

(** fortranfixed.rl:47-47 *)
Definition m_ffixed_comment : rx :=
  cats (Aug [Finish a_comment] (Lit (bytes "C"))) [Star m_nonnewline].

(** fortranfixed.rl:49-49 *)
Definition m_ffixed_sq_str : rx :=
  cats (Aug [Finish a_code] (Lit (bytes "'"))) [Star m_nonnewline; Lit (bytes "'")].

(** fortranfixed.rl:50-50 *)
Definition m_ffixed_dq_str : rx :=
  cats (Aug [Finish a_code] (Lit (bytes """"))) [Star m_nonnewline; Lit (bytes """")].

(** fortranfixed.rl:51-51 *)
Definition m_ffixed_string : rx :=
  alts m_ffixed_sq_str [m_ffixed_dq_str].

(** fortranfixed.rl:53-59 *)
Definition i_ffixed_line : instance :=
  Scanner [
    (Aug [All (mkAction 36501 [Entity 0])] m_spaces, Some a_ffixed_ccallback);
    (m_ffixed_comment, None);
    (m_ffixed_string, None);
    (Aug [All (mkAction 36502 [Entity (-1)])] m_newline, Some a_ffixed_ccallback);
    (Aug [All (mkAction 36503 [Entity 3])] (NotChr r_space), Some a_ffixed_ccallback)].

(** fortranfixed.rl:63 *)
Definition a_ffixed_ecallback : action := mkAction 36002 [Report "FORTRANFIXED_LANG" ["space"; "comment"; "string"; "any"]].

(** fortranfixed.rl:68-68 *)
Definition m_ffixed_comment_entity : rx :=
  cats (Lit (bytes "C")) [Star m_nonnewline].

(** fortranfixed.rl:70-75 *)
Definition i_ffixed_entity : instance :=
  Scanner [
    (Aug [All (mkAction 36504 [Entity 0])] (Plus r_space), Some a_ffixed_ecallback);
    (Aug [All (mkAction 36505 [Entity 1])] m_ffixed_comment_entity, Some a_ffixed_ecallback);
    (NotChr r_space, None)].

Definition the_parser : parser := mkParser [i_ffixed_line] "FORTRANFIXED_LANG".
Definition the_entities : parser := mkParser [i_ffixed_entity] "FORTRANFIXED_LANG".
