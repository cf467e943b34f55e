(** Transcription of /repo/src/parsers/mathematica.rl: the line counting machine and the
    entity machine (written by tools/ragel/gen.py). *)
From Coq Require Import ZArith String List.
From Verif Require Import Base RagelSyntax.
From Verif.Parsers Require Import Common.
Import ListNotations.
Open Scope string_scope.
Open Scope Z_scope.
Open Scope list_scope.

(** mathematica.rl:31 *)
Definition a_mathematica_ccallback : action := mkAction 60001 [Switch [(0, Mls); (3, Mcode); ((-2), Minl "MATHEMATICA_LANG"); ((-1), Mnl "MATHEMATICA_LANG")]].

(** mathematica.rl:47 *)
Definition a_mathematica_comment_nc_res : action := mkAction 60002 [VarSet 0 0].

(** mathematica.rl:48 *)
Definition a_mathematica_comment_nc_inc : action := mkAction 60003 [VarAdd 0 1].

(** mathematica.rl:49 *)
Definition a_mathematica_comment_nc_dec : action := mkAction 60004 [VarAdd 0 (-1)].

(** mathematica.rl:51-62 *)
Definition m_mathematica_nested_block_comment : rx :=
  CatFin (cats (Aug [Enter a_mathematica_comment_nc_res; Finish a_comment] (Lit (bytes "(*"))) [
    Star (alts (Aug [Leave (mkAction 60501 [Entity (-2)]); Leave a_mathematica_ccallback] m_newline) [
      m_ws;
      Aug [Finish a_mathematica_comment_nc_inc; Finish a_comment] (Lit (bytes "(*"));
      Aug [Finish a_mathematica_comment_nc_dec; Finish a_comment] (Lit (bytes "*)"));
      Aug [Finish a_comment] (Diff m_nonnewline m_ws)])]) (Aug [Finish a_comment] (Aug [When (IsZero 0) true] (Lit (bytes "*)")))).

(** mathematica.rl:64-64 *)
Definition m_mathematica_comment : rx :=
  m_mathematica_nested_block_comment.

(** mathematica.rl:66-66 *)
Definition m_mathematica_string : rx :=
  cats (Aug [Finish a_code] (Lit (bytes """"))) [NCls [(34, 34)]; Lit (bytes """")].

(** mathematica.rl:68-74 *)
Definition i_mathematica_line : instance :=
  Scanner [
    (Aug [All (mkAction 60503 [Entity 0])] m_spaces, Some a_mathematica_ccallback);
    (m_mathematica_comment, None);
    (m_mathematica_string, None);
    (Aug [All (mkAction 60504 [Entity (-1)])] m_newline, Some a_mathematica_ccallback);
    (Aug [All (mkAction 60505 [Entity 3])] (NotChr r_space), Some a_mathematica_ccallback)].

(** mathematica.rl:78 *)
Definition a_mathematica_ecallback : action := mkAction 60005 [Report "MATHEMATICA_LANG" ["space"; "comment"; "string"; "any"]].

(** mathematica.rl:83-89 *)
Definition m_mathematica_comment_entity : rx :=
  CatFin (cats (Aug [Enter a_mathematica_comment_nc_res] (Lit (bytes "(*"))) [
    Star (alts (Aug [Finish a_mathematica_comment_nc_inc] (Lit (bytes "(*"))) [
      Aug [Finish a_mathematica_comment_nc_dec] (Lit (bytes "*)"));
      r_any])]) (Aug [When (IsZero 0) true] (Lit (bytes "*)"))).

(** mathematica.rl:91-96 *)
Definition i_mathematica_entity : instance :=
  Scanner [
    (Aug [All (mkAction 60507 [Entity 0])] (Plus r_space), Some a_mathematica_ecallback);
    (Aug [All (mkAction 60508 [Entity 1])] m_mathematica_comment_entity, Some a_mathematica_ecallback);
    (NotChr r_space, None)].

Definition the_parser : parser := mkParser [i_mathematica_line] "MATHEMATICA_LANG".
Definition the_entities : parser := mkParser [i_mathematica_entity] "MATHEMATICA_LANG".
