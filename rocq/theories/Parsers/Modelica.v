(** Transcription of /repo/src/parsers/modelica.rl: the line counting machine and the
    entity machine (written by tools/ragel/gen.py). *)
From Coq Require Import ZArith String List.
From Verif Require Import Base RagelSyntax.
From Verif.Parsers Require Import Common.
Import ListNotations.
Open Scope string_scope.
Open Scope Z_scope.
Open Scope list_scope.

(** modelica.rl:31 *)
Definition a_modelica_ccallback : action := mkAction 65001 [Switch [(0, Mls); (3, Mcode); ((-2), Minl "MODELICA_LANG"); ((-1), Mnl "MODELICA_LANG")]].

(** modelica.rl:47-47 *)
Definition m_modelica_line_comment : rx :=
  cats (Aug [Finish a_comment] (Lit (bytes "//"))) [Star m_nonnewline].

(** modelica.rl:49-56 *)
Definition m_modelica_block_comment : rx :=
  CatFin (cats (Aug [Finish a_comment] (Lit (bytes "/*"))) [
    Star (alts (Aug [Leave (mkAction 65501 [Entity (-2)]); Leave a_modelica_ccallback] m_newline) [
      m_ws;
      Aug [Finish a_comment] (Diff m_nonnewline m_ws)])]) (Lit (bytes "*/")).

(** modelica.rl:58-58 *)
Definition m_modelica_comment : rx :=
  alts m_modelica_line_comment [m_modelica_block_comment].

(** modelica.rl:59-59 *)
Definition m_identifier : rx :=
  cats (alts r_alpha [Lit (bytes "_")]) [Star (alts r_alnum [Lit (bytes "_")])].

(** modelica.rl:60-65 *)
Definition m_string : rx :=
  cats (Aug [Finish a_code] (Lit (bytes """"))) [
    Star (alts (Aug [Leave (mkAction 65502 [Entity (-2)]); Leave a_modelica_ccallback] m_newline) [
      m_ws;
      Aug [Finish a_code] (NCls [(9, 10); (32, 32); (34, 34); (92, 92)]);
      Aug [Finish a_code] (Lit (bytes "\"""))]);
    Aug [Finish a_code] (Lit (bytes """"))].

(** modelica.rl:67-74 *)
Definition i_modelica_line : instance :=
  Scanner [
    (Aug [All (mkAction 65503 [Entity 0])] m_spaces, Some a_modelica_ccallback);
    (m_modelica_comment, None);
    (Aug [All (mkAction 65504 [Entity (-1)])] m_newline, Some a_modelica_ccallback);
    (Aug [All (mkAction 65505 [Entity 3])] m_identifier, Some a_modelica_ccallback);
    (Aug [All (mkAction 65506 [Entity 3])] m_string, Some a_modelica_ccallback);
    (Aug [All (mkAction 65507 [Entity 3])] (NotChr r_space), Some a_modelica_ccallback)].

(** modelica.rl:78 *)
Definition a_modelica_ecallback : action := mkAction 65002 [Report "MODELICA_LANG" ["space"; "comment"; "string"; "any"]].

(** modelica.rl:93-93 *)
Definition m_modelica_ecomment : rx :=
  alts m_modelica_line_comment [m_modelica_block_comment].

(** modelica.rl:95-101 *)
Definition i_modelica_entity : instance :=
  Scanner [
    (Aug [All (mkAction 65509 [Entity 0])] (Plus r_space), Some a_modelica_ecallback);
    (Aug [All (mkAction 65510 [Entity 1])] m_modelica_ecomment, Some a_modelica_ecallback);
    (Aug [All (mkAction 65511 [Entity 3])] m_identifier, Some a_modelica_ecallback);
    (Aug [All (mkAction 65512 [Entity 3])] m_string, Some a_modelica_ecallback);
    (NotChr r_space, None)].

Definition the_parser : parser := mkParser [i_modelica_line] "MODELICA_LANG".
Definition the_entities : parser := mkParser [i_modelica_entity] "MODELICA_LANG".
