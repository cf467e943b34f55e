(** Transcription of /repo/src/parsers/dcl.rl: the line counting machine and the
    entity machine (written by tools/ragel/gen.py). *)
From Coq Require Import ZArith String List.
From Verif Require Import Base RagelSyntax.
From Verif.Parsers Require Import Common.
Import ListNotations.
Open Scope string_scope.
Open Scope Z_scope.
Open Scope list_scope.

(** dcl.rl:31 *)
Definition a_dcl_ccallback : action := mkAction 27001 [Switch [(0, Mls); (1, Mls); (4, Mcode); ((-2), Minl "DCL_LANG"); ((-1), Mnl "DCL_LANG")]].

(** dcl.rl:48-48 *)
Definition m_dcl_comment : rx :=
  cats (Aug [Finish a_comment] (Lit (bytes "!"))) [Star m_nonnewline].

(** dcl.rl:50-50 *)
Definition m_dcl_string : rx :=
  cats (Aug [Finish a_code] (Lit (bytes """"))) [
    Star (alts (NCls [(10, 10); (12, 13); (34, 34); (92, 92)]) [cats (Lit (bytes "\")) [m_nonnewline]]);
    Lit (bytes """")].

(** dcl.rl:52-59 *)
Definition i_dcl_line : instance :=
  Scanner [
    (Aug [All (mkAction 27501 [Entity 1])] (Lit (bytes "$")), Some a_dcl_ccallback);
    (Aug [All (mkAction 27502 [Entity 0])] m_spaces, Some a_dcl_ccallback);
    (m_dcl_comment, None);
    (m_dcl_string, None);
    (Aug [All (mkAction 27503 [Entity (-1)])] m_newline, Some a_dcl_ccallback);
    (Aug [All (mkAction 27504 [Entity 4])] (NotChr (alts r_space [Lit (bytes "$")])), Some a_dcl_ccallback)].

(** dcl.rl:63 *)
Definition a_dcl_ecallback : action := mkAction 27002 [Report "DCL_LANG" ["space"; "line_start"; "comment"; "string"; "any"]].

(** dcl.rl:67-67 *)
Definition m_dcl_comment_entity : rx :=
  cats (Lit (bytes "!")) [Star m_nonnewline].

(** dcl.rl:69-74 *)
Definition i_dcl_entity : instance :=
  Scanner [
    (Aug [All (mkAction 27505 [Entity 0])] (Plus r_space), Some a_dcl_ecallback);
    (Aug [All (mkAction 27506 [Entity 2])] m_dcl_comment_entity, Some a_dcl_ecallback);
    (NotChr r_space, None)].

Definition the_parser : parser := mkParser [i_dcl_line] "DCL_LANG".
Definition the_entities : parser := mkParser [i_dcl_entity] "DCL_LANG".
