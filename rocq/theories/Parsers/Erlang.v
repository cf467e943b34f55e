(** Transcription of /repo/src/parsers/erlang.rl: the line counting machine and the
    entity machine (written by tools/ragel/gen.py). *)
From Coq Require Import ZArith String List.
From Verif Require Import Base RagelSyntax.
From Verif.Parsers Require Import Common.
Import ListNotations.
Open Scope string_scope.
Open Scope Z_scope.
Open Scope list_scope.

(** erlang.rl:31 *)
Definition a_erlang_ccallback : action := mkAction 32001 [Switch [(0, Mls); (3, Mcode); ((-2), Minl "ERLANG_LANG"); ((-1), Mnl "ERLANG_LANG")]].

(** erlang.rl:47-47 *)
Definition m_erlang_comment : rx :=
  cats (Aug [Finish a_comment] (Lit (bytes "%%"))) [Star m_nonnewline].

(** erlang.rl:49-49 *)
Definition m_erlang_sq_str : rx :=
  cats (Aug [Finish a_code] (Lit (bytes "'"))) [
    Star (alts (NCls [(10, 10); (12, 13); (39, 39); (92, 92)]) [cats (Lit (bytes "\")) [m_nonnewline]]);
    Lit (bytes "'")].

(** erlang.rl:50-50 *)
Definition m_erlang_dq_str : rx :=
  cats (Aug [Finish a_code] (Lit (bytes """"))) [
    Star (alts (NCls [(10, 10); (12, 13); (34, 34); (92, 92)]) [cats (Lit (bytes "\")) [m_nonnewline]]);
    Lit (bytes """")].

(** erlang.rl:51-51 *)
Definition m_erlang_string : rx :=
  alts m_erlang_sq_str [m_erlang_dq_str].

(** erlang.rl:53-59 *)
Definition i_erlang_line : instance :=
  Scanner [
    (Aug [All (mkAction 32501 [Entity 0])] m_spaces, Some a_erlang_ccallback);
    (m_erlang_comment, None);
    (m_erlang_string, None);
    (Aug [All (mkAction 32502 [Entity (-1)])] m_newline, Some a_erlang_ccallback);
    (Aug [All (mkAction 32503 [Entity 3])] (NotChr r_space), Some a_erlang_ccallback)].

(** erlang.rl:63 *)
Definition a_erlang_ecallback : action := mkAction 32002 [Report "ERLANG_LANG" ["space"; "comment"; "string"; "any"]].

(** erlang.rl:68-68 *)
Definition m_erlang_comment_entity : rx :=
  cats (Lit (bytes "%")) [Star m_nonnewline].

(** erlang.rl:70-75 *)
Definition i_erlang_entity : instance :=
  Scanner [
    (Aug [All (mkAction 32504 [Entity 0])] (Plus r_space), Some a_erlang_ecallback);
    (Aug [All (mkAction 32505 [Entity 1])] m_erlang_comment_entity, Some a_erlang_ecallback);
    (NotChr r_space, None)].

Definition the_parser : parser := mkParser [i_erlang_line] "ERLANG_LANG".
Definition the_entities : parser := mkParser [i_erlang_entity] "ERLANG_LANG".
