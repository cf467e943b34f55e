(** Transcription of /repo/src/parsers/awk.rl: the line counting machine and the
    entity machine (written by tools/ragel/gen.py). *)
From Coq Require Import ZArith String List.
From Verif Require Import Base RagelSyntax.
From Verif.Parsers Require Import Common.
Import ListNotations.
Open Scope string_scope.
Open Scope Z_scope.
Open Scope list_scope.

(** awk.rl:31 *)
Definition a_awk_ccallback : action := mkAction 8001 [Switch [(0, Mls); (3, Mcode); ((-2), Minl "AWK_LANG"); ((-1), Mnl "AWK_LANG")]].

(** awk.rl:47-47 *)
Definition m_awk_comment : rx :=
  cats (Aug [Finish a_comment] (Lit (bytes "#"))) [Star m_nonnewline].

(** awk.rl:49-49 *)
Definition m_awk_dq_str : rx :=
  cats (Aug [Finish a_code] (Lit (bytes """"))) [
    Star (alts (NCls [(10, 10); (12, 13); (34, 34); (92, 92)]) [cats (Lit (bytes "\")) [m_nonnewline]]);
    Lit (bytes """")].

(** awk.rl:50-50 *)
Definition m_awk_regex : rx :=
  cats (Aug [Finish a_code] (Lit (bytes "/"))) [
    Star (alts (NCls [(10, 10); (12, 13); (47, 47); (92, 92)]) [cats (Lit (bytes "\")) [m_nonnewline]]);
    Lit (bytes "/")].

(** awk.rl:51-51 *)
Definition m_awk_string : rx :=
  alts m_awk_dq_str [m_awk_regex].

(** awk.rl:53-59 *)
Definition i_awk_line : instance :=
  Scanner [
    (Aug [All (mkAction 8501 [Entity 0])] m_spaces, Some a_awk_ccallback);
    (m_awk_comment, None);
    (m_awk_string, None);
    (Aug [All (mkAction 8502 [Entity (-1)])] m_newline, Some a_awk_ccallback);
    (Aug [All (mkAction 8503 [Entity 3])] (NotChr r_space), Some a_awk_ccallback)].

(** awk.rl:63 *)
Definition a_awk_ecallback : action := mkAction 8002 [Report "AWK_LANG" ["space"; "comment"; "string"; "any"]].

(** awk.rl:67-67 *)
Definition m_awk_comment_entity : rx :=
  cats (Lit (bytes "#")) [Star m_nonnewline].

(** awk.rl:69-74 *)
Definition i_awk_entity : instance :=
  Scanner [
    (Aug [All (mkAction 8504 [Entity 0])] (Plus r_space), Some a_awk_ecallback);
    (Aug [All (mkAction 8505 [Entity 1])] m_awk_comment_entity, Some a_awk_ecallback);
    (NotChr r_space, None)].

Definition the_parser : parser := mkParser [i_awk_line] "AWK_LANG".
Definition the_entities : parser := mkParser [i_awk_entity] "AWK_LANG".
