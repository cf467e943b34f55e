(** Transcription of /repo/src/parsers/factor.rl: the line counting machine and the
    entity machine (written by tools/ragel/gen.py). *)
From Coq Require Import ZArith String List.
From Verif Require Import Base RagelSyntax.
From Verif.Parsers Require Import Common.
Import ListNotations.
Open Scope string_scope.
Open Scope Z_scope.
Open Scope list_scope.

(** factor.rl:32 *)
Definition a_factor_ccallback : action := mkAction 34001 [Switch [(0, Mls); (3, Mcode); ((-2), Minl "FACTOR_LANG"); ((-1), Mnl "FACTOR_LANG")]].

(** factor.rl:48-48 *)
Definition m_factor_comment : rx :=
  cats (Aug [Finish a_comment] (Lit (bytes "!"))) [Star m_nonnewline].

(** factor.rl:50-59 *)
Definition m_factor_string : rx :=
  cats (Aug [Finish a_code] (Lit (bytes """"))) [
    Star (alts (Aug [Leave (mkAction 34501 [Entity (-2)]); Leave a_factor_ccallback] m_newline) [
      m_ws;
      Aug [Finish a_code] (NCls [(9, 10); (12, 13); (32, 32); (34, 34); (92, 92)]);
      cats (Lit (bytes "\")) [Aug [Finish a_code] m_nonnewline]]);
    Lit (bytes """")].

(** factor.rl:61-67 *)
Definition i_factor_line : instance :=
  Scanner [
    (Aug [All (mkAction 34502 [Entity 0])] m_spaces, Some a_factor_ccallback);
    (m_factor_comment, None);
    (m_factor_string, None);
    (Aug [All (mkAction 34503 [Entity (-1)])] m_newline, Some a_factor_ccallback);
    (Aug [All (mkAction 34504 [Entity 3])] (NotChr r_space), Some a_factor_ccallback)].

(** factor.rl:76-76 *)
Definition i_factor_entity : instance :=
  Plain (Lit (bytes "TODO:")).

Definition the_parser : parser := mkParser [i_factor_line] "FACTOR_LANG".
Definition the_entities : parser := mkParser [i_factor_entity] "FACTOR_LANG".
