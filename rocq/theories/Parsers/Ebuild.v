(** Transcription of /repo/src/parsers/ebuild.rl: the line counting machine and the
    entity machine (written by tools/ragel/gen.py). *)
From Coq Require Import ZArith String List.
From Verif Require Import Base RagelSyntax.
From Verif.Parsers Require Import Common.
Import ListNotations.
Open Scope string_scope.
Open Scope Z_scope.
Open Scope list_scope.

(** ebuild.rl:31 *)
Definition a_ebuild_ccallback : action := mkAction 29001 [Switch [(0, Mls); (3, Mcode); ((-2), Minl "EBUILD_LANG"); ((-1), Mnl "EBUILD_LANG")]].

(** ebuild.rl:47-47 *)
Definition m_ebuild_comment : rx :=
  cats (Aug [Finish a_comment] (Lit (bytes "#"))) [Star m_nonnewline].

(** ebuild.rl:49-49 *)
Definition m_ebuild_sq_str : rx :=
  cats (Aug [Finish a_code] (Lit (bytes "'"))) [
    Star (alts (NCls [(10, 10); (12, 13); (39, 39); (92, 92)]) [cats (Lit (bytes "\")) [m_nonnewline]]);
    Lit (bytes "'")].

(** ebuild.rl:50-50 *)
Definition m_ebuild_dq_str : rx :=
  cats (Aug [Finish a_code] (Lit (bytes """"))) [
    Star (alts (NCls [(10, 10); (12, 13); (34, 34); (92, 92)]) [cats (Lit (bytes "\")) [m_nonnewline]]);
    Lit (bytes """")].

(** ebuild.rl:51-51 *)
Definition m_ebuild_string : rx :=
  alts m_ebuild_sq_str [m_ebuild_dq_str].

(** ebuild.rl:53-59 *)
Definition i_ebuild_line : instance :=
  Scanner [
    (Aug [All (mkAction 29501 [Entity 0])] m_spaces, Some a_ebuild_ccallback);
    (m_ebuild_comment, None);
    (m_ebuild_string, None);
    (Aug [All (mkAction 29502 [Entity (-1)])] m_newline, Some a_ebuild_ccallback);
    (Aug [All (mkAction 29503 [Entity 3])] (NotChr r_space), Some a_ebuild_ccallback)].

(** ebuild.rl:63 *)
Definition a_ebuild_ecallback : action := mkAction 29002 [Report "EBUILD_LANG" ["space"; "comment"; "string"; "any"]].

(** ebuild.rl:68-68 *)
Definition m_ebuild_comment_entity : rx :=
  cats (Lit (bytes "#")) [Star m_nonnewline].

(** ebuild.rl:70-75 *)
Definition i_ebuild_entity : instance :=
  Scanner [
    (Aug [All (mkAction 29504 [Entity 0])] (Plus r_space), Some a_ebuild_ecallback);
    (Aug [All (mkAction 29505 [Entity 1])] m_ebuild_comment_entity, Some a_ebuild_ecallback);
    (NotChr r_space, None)].

Definition the_parser : parser := mkParser [i_ebuild_line] "EBUILD_LANG".
Definition the_entities : parser := mkParser [i_ebuild_entity] "EBUILD_LANG".
