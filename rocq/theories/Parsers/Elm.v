(** Transcription of /repo/src/parsers/elm.rl: the line counting machine and the
    entity machine (written by tools/ragel/gen.py). *)
From Coq Require Import ZArith String List.
From Verif Require Import Base RagelSyntax.
From Verif.Parsers Require Import Common.
Import ListNotations.
Open Scope string_scope.
Open Scope Z_scope.
Open Scope list_scope.

(** elm.rl:31 *)
Definition a_elm_ccallback : action := mkAction 31001 [Switch [(0, Mls); (3, Mcode); ((-2), Minl "ELM_LANG"); ((-1), Mnl "ELM_LANG")]].

(** elm.rl:52-52 *)
Definition m_elm_line_comment : rx :=
  cats (Lit (bytes "--")) [
    Aug [Finish (mkAction 31501 [Hold]); Finish a_comment] (NCls [(62, 62)]);
    Star m_nonnewline].

(** elm.rl:47 *)
Definition a_elm_comment_nc_res : action := mkAction 31002 [VarSet 0 0].

(** elm.rl:48 *)
Definition a_elm_comment_nc_inc : action := mkAction 31003 [VarAdd 0 1].

(** elm.rl:49 *)
Definition a_elm_comment_nc_dec : action := mkAction 31004 [VarAdd 0 (-1)].

(** elm.rl:53-64 *)
Definition m_elm_nested_block_comment : rx :=
  CatFin (cats (Aug [Enter a_elm_comment_nc_res; Finish a_comment] (Lit (bytes "{-"))) [
    Star (alts (Aug [Leave (mkAction 31502 [Entity (-2)]); Leave a_elm_ccallback] m_newline) [
      m_ws;
      Aug [Finish a_elm_comment_nc_inc; Finish a_comment] (Lit (bytes "{-"));
      Aug [Finish a_elm_comment_nc_dec; Finish a_comment] (Lit (bytes "-}"));
      Aug [Finish a_comment] (Diff m_nonnewline m_ws)])]) (Aug [Finish a_comment] (Aug [When (IsZero 0) true] (Lit (bytes "-}")))).

(** elm.rl:65-65 *)
Definition m_elm_comment : rx :=
  alts m_elm_line_comment [m_elm_nested_block_comment].

(** elm.rl:67-67 *)
Definition m_elm_char : rx :=
  cats (Aug [Finish a_code] (Lit (bytes "'"))) [
    alts (NCls [(10, 10); (12, 13); (39, 39); (92, 92)]) [cats (Lit (bytes "\")) [m_nonnewline]];
    Lit (bytes "'")].

(** elm.rl:68-77 *)
Definition m_elm_dq_str : rx :=
  cats (Aug [Finish a_code] (Lit (bytes """"))) [
    Star (alts (Aug [Leave (mkAction 31504 [Entity (-2)]); Leave a_elm_ccallback] m_escaped_newline) [
      m_ws;
      Aug [Finish a_code] (NCls [(9, 9); (32, 32); (34, 34); (92, 92)]);
      cats (Lit (bytes "\")) [Aug [Finish a_code] m_nonnewline]]);
    Lit (bytes """")].

(** elm.rl:78-78 *)
Definition m_elm_string : rx :=
  alts m_elm_char [m_elm_dq_str].

(** elm.rl:80-86 *)
Definition i_elm_line : instance :=
  Scanner [
    (Aug [All (mkAction 31505 [Entity 0])] m_spaces, Some a_elm_ccallback);
    (m_elm_comment, None);
    (m_elm_string, None);
    (Aug [All (mkAction 31506 [Entity (-1)])] m_newline, Some a_elm_ccallback);
    (Aug [All (mkAction 31507 [Entity 3])] (NotChr r_space), Some a_elm_ccallback)].

(** elm.rl:90 *)
Definition a_elm_ecallback : action := mkAction 31005 [Report "ELM_LANG" ["space"; "comment"; "string"; "any"]].

(** elm.rl:95-95 *)
Definition m_elm_line_comment_entity : rx :=
  cats (Lit (bytes "--")) [
    Aug [Finish (mkAction 31508 [Hold])] (NCls [(62, 62)]);
    Star m_nonnewline].

(** elm.rl:96-102 *)
Definition m_elm_block_comment_entity : rx :=
  CatFin (cats (Aug [Enter a_elm_comment_nc_res] (Lit (bytes "{-"))) [
    Star (alts (Aug [Finish a_elm_comment_nc_inc] (Lit (bytes "{-"))) [
      Aug [Finish a_elm_comment_nc_dec] (Lit (bytes "-}"));
      r_any])]) (Aug [When (IsZero 0) true] (Lit (bytes "-}"))).

(** elm.rl:103-104 *)
Definition m_elm_comment_entity : rx :=
  alts m_elm_line_comment_entity [m_elm_block_comment_entity].

(** elm.rl:106-111 *)
Definition i_elm_entity : instance :=
  Scanner [
    (Aug [All (mkAction 31510 [Entity 0])] (Plus r_space), Some a_elm_ecallback);
    (Aug [All (mkAction 31511 [Entity 1])] m_elm_comment_entity, Some a_elm_ecallback);
    (NotChr r_space, None)].

Definition the_parser : parser := mkParser [i_elm_line] "ELM_LANG".
Definition the_entities : parser := mkParser [i_elm_entity] "ELM_LANG".
