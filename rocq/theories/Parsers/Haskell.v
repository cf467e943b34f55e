(** Transcription of /repo/src/parsers/haskell.rl: the line counting machine and the
    entity machine (written by tools/ragel/gen.py). *)
From Coq Require Import ZArith String List.
From Verif Require Import Base RagelSyntax.
From Verif.Parsers Require Import Common.
Import ListNotations.
Open Scope string_scope.
Open Scope Z_scope.
Open Scope list_scope.

(** haskell.rl:31 *)
Definition a_haskell_ccallback : action := mkAction 44001 [Switch [(0, Mls); (3, Mcode); ((-2), Minl "HASKELL_LANG"); ((-1), Mnl "HASKELL_LANG")]].

(** haskell.rl:52-52 *)
Definition m_haskell_line_comment : rx :=
  cats (Lit (bytes "--")) [
    Aug [Finish (mkAction 44501 [Hold]); Finish a_comment] (NCls [(62, 62)]);
    Star m_nonnewline].

(** haskell.rl:47 *)
Definition a_haskell_comment_nc_res : action := mkAction 44002 [VarSet 0 0].

(** haskell.rl:48 *)
Definition a_haskell_comment_nc_inc : action := mkAction 44003 [VarAdd 0 1].

(** haskell.rl:49 *)
Definition a_haskell_comment_nc_dec : action := mkAction 44004 [VarAdd 0 (-1)].

(** haskell.rl:53-64 *)
Definition m_haskell_nested_block_comment : rx :=
  CatFin (cats (Aug [Enter a_haskell_comment_nc_res; Finish a_comment] (Lit (bytes "{-"))) [
    Star (alts (Aug [Leave (mkAction 44502 [Entity (-2)]); Leave a_haskell_ccallback] m_newline) [
      m_ws;
      Aug [Finish a_haskell_comment_nc_inc; Finish a_comment] (Lit (bytes "{-"));
      Aug [Finish a_haskell_comment_nc_dec; Finish a_comment] (Lit (bytes "-}"));
      Aug [Finish a_comment] (Diff m_nonnewline m_ws)])]) (Aug [Finish a_comment] (Aug [When (IsZero 0) true] (Lit (bytes "-}")))).

(** haskell.rl:65-65 *)
Definition m_haskell_comment : rx :=
  alts m_haskell_line_comment [m_haskell_nested_block_comment].

(** haskell.rl:67-67 *)
Definition m_haskell_char : rx :=
  cats (Aug [Finish a_code] (Lit (bytes "'"))) [
    alts (NCls [(10, 10); (12, 13); (39, 39); (92, 92)]) [cats (Lit (bytes "\")) [m_nonnewline]];
    Lit (bytes "'")].

(** haskell.rl:68-77 *)
Definition m_haskell_dq_str : rx :=
  cats (Aug [Finish a_code] (Lit (bytes """"))) [
    Star (alts (Aug [Leave (mkAction 44504 [Entity (-2)]); Leave a_haskell_ccallback] m_escaped_newline) [
      m_ws;
      Aug [Finish a_code] (NCls [(9, 9); (32, 32); (34, 34); (92, 92)]);
      cats (Lit (bytes "\")) [Aug [Finish a_code] m_nonnewline]]);
    Lit (bytes """")].

(** haskell.rl:78-78 *)
Definition m_haskell_string : rx :=
  alts m_haskell_char [m_haskell_dq_str].

(** haskell.rl:80-86 *)
Definition i_haskell_line : instance :=
  Scanner [
    (Aug [All (mkAction 44505 [Entity 0])] m_spaces, Some a_haskell_ccallback);
    (m_haskell_comment, None);
    (m_haskell_string, None);
    (Aug [All (mkAction 44506 [Entity (-1)])] m_newline, Some a_haskell_ccallback);
    (Aug [All (mkAction 44507 [Entity 3])] (NotChr r_space), Some a_haskell_ccallback)].

(** haskell.rl:90 *)
Definition a_haskell_ecallback : action := mkAction 44005 [Report "HASKELL_LANG" ["space"; "comment"; "string"; "any"]].

(** haskell.rl:95-95 *)
Definition m_haskell_line_comment_entity : rx :=
  cats (Lit (bytes "--")) [
    Aug [Finish (mkAction 44508 [Hold])] (NCls [(62, 62)]);
    Star m_nonnewline].

(** haskell.rl:96-102 *)
Definition m_haskell_block_comment_entity : rx :=
  CatFin (cats (Aug [Enter a_haskell_comment_nc_res] (Lit (bytes "{-"))) [
    Star (alts (Aug [Finish a_haskell_comment_nc_inc] (Lit (bytes "{-"))) [
      Aug [Finish a_haskell_comment_nc_dec] (Lit (bytes "-}"));
      r_any])]) (Aug [When (IsZero 0) true] (Lit (bytes "-}"))).

(** haskell.rl:103-104 *)
Definition m_haskell_comment_entity : rx :=
  alts m_haskell_line_comment_entity [m_haskell_block_comment_entity].

(** haskell.rl:106-111 *)
Definition i_haskell_entity : instance :=
  Scanner [
    (Aug [All (mkAction 44510 [Entity 0])] (Plus r_space), Some a_haskell_ecallback);
    (Aug [All (mkAction 44511 [Entity 1])] m_haskell_comment_entity, Some a_haskell_ecallback);
    (NotChr r_space, None)].

Definition the_parser : parser := mkParser [i_haskell_line] "HASKELL_LANG".
Definition the_entities : parser := mkParser [i_haskell_entity] "HASKELL_LANG".
