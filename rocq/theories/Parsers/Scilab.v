(** Transcription of /repo/src/parsers/scilab.rl: the line counting machine and the
    entity machine (written by tools/ragel/gen.py). *)
From Coq Require Import ZArith String List.
From Verif Require Import Base RagelSyntax.
From Verif.Parsers Require Import Common.
Import ListNotations.
Open Scope string_scope.
Open Scope Z_scope.
Open Scope list_scope.

(** scilab.rl:31 *)
Definition a_scilab_ccallback : action := mkAction 93001 [Switch [(0, Mls); (3, Mcode); ((-2), Minl "SCILAB_LANG"); ((-1), Mnl "SCILAB_LANG")]].

(** scilab.rl:47-47 *)
Definition m_scilab_comment : rx :=
  cats (Aug [Finish a_comment] (Lit (bytes "//"))) [Star m_nonnewline].

(** scilab.rl:51-51 *)
Definition m_scilab_sq_str : rx :=
  cats (Aug [Finish a_code] (Lit (bytes "'"))) [
    Star (alts (NCls [(10, 10); (12, 13); (39, 39); (92, 92)]) [cats (Lit (bytes "\")) [m_nonnewline]]);
    Lit (bytes "'")].

(** scilab.rl:52-52 *)
Definition m_scilab_dq_str : rx :=
  cats (Aug [Finish a_code] (Lit (bytes """"))) [
    Star (alts (NCls [(10, 10); (12, 13); (34, 34); (92, 92)]) [cats (Lit (bytes "\")) [m_nonnewline]]);
    Lit (bytes """")].

(** scilab.rl:53-53 *)
Definition m_scilab_string : rx :=
  alts m_scilab_sq_str [m_scilab_dq_str].

(** scilab.rl:55-61 *)
Definition i_scilab_line : instance :=
  Scanner [
    (Aug [All (mkAction 93501 [Entity 0])] m_spaces, Some a_scilab_ccallback);
    (m_scilab_comment, None);
    (m_scilab_string, None);
    (Aug [All (mkAction 93502 [Entity (-1)])] m_newline, Some a_scilab_ccallback);
    (Aug [All (mkAction 93503 [Entity 3])] (NotChr r_space), Some a_scilab_ccallback)].

(** scilab.rl:65 *)
Definition a_scilab_ecallback : action := mkAction 93002 [Report "SCILAB_LANG" ["space"; "comment"; "string"; "any"]].

(** scilab.rl:70-70 *)
Definition m_scilab_comment_entity : rx :=
  cats (Aug [Finish a_comment] (Lit (bytes "//"))) [Star m_nonnewline].

(** scilab.rl:72-77 *)
Definition i_scilab_entity : instance :=
  Scanner [
    (Aug [All (mkAction 93504 [Entity 0])] (Plus r_space), Some a_scilab_ecallback);
    (Aug [All (mkAction 93505 [Entity 1])] m_scilab_comment_entity, Some a_scilab_ecallback);
    (NotChr r_space, None)].

Definition the_parser : parser := mkParser [i_scilab_line] "SCILAB_LANG".
Definition the_entities : parser := mkParser [i_scilab_entity] "SCILAB_LANG".
