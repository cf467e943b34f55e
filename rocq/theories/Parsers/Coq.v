(** Transcription of /repo/src/parsers/coq.rl: the line counting machine and the
    entity machine (written by tools/ragel/gen.py). *)
From Coq Require Import ZArith String List.
From Verif Require Import Base RagelSyntax.
From Verif.Parsers Require Import Common.
Import ListNotations.
Open Scope string_scope.
Open Scope Z_scope.
Open Scope list_scope.

(** coq.rl:29 *)
Definition a_coq_ccallback : action := mkAction 21001 [Switch [(0, Mls); (3, Mcode); ((-2), Minl "COQ_LANG"); ((-1), Mnl "COQ_LANG")]].

(** coq.rl:45 *)
Definition a_coq_comment_nc_res : action := mkAction 21002 [VarSet 0 0].

(** coq.rl:46 *)
Definition a_coq_comment_nc_inc : action := mkAction 21003 [VarAdd 0 1].

(** coq.rl:47 *)
Definition a_coq_comment_nc_dec : action := mkAction 21004 [VarAdd 0 (-1)].

(** coq.rl:49-60 *)
Definition m_coq_nested_block_comment : rx :=
  CatFin (cats (Aug [Enter a_coq_comment_nc_res; Finish a_comment] (Lit (bytes "(*"))) [
    Star (alts (Aug [Leave (mkAction 21501 [Entity (-2)]); Leave a_coq_ccallback] m_newline) [
      m_ws;
      Aug [Finish a_coq_comment_nc_inc; Finish a_comment] (Lit (bytes "(*"));
      Aug [Finish a_coq_comment_nc_dec; Finish a_comment] (Lit (bytes "*)"));
      Aug [Finish a_comment] (Diff m_nonnewline m_ws)])]) (Aug [Finish a_comment] (Aug [When (IsZero 0) true] (Lit (bytes "*)")))).

(** coq.rl:62-62 *)
Definition m_coq_comment : rx :=
  m_coq_nested_block_comment.

(** coq.rl:64-71 *)
Definition m_coq_string : rx :=
  cats (Aug [Finish a_code] (Lit (bytes """"))) [
    Star (alts (Aug [Leave (mkAction 21503 [Entity (-2)]); Leave a_coq_ccallback] m_newline) [
      m_ws;
      Aug [Finish a_code] (NCls [(34, 34)])]);
    Lit (bytes """")].

(** coq.rl:73-79 *)
Definition i_coq_line : instance :=
  Scanner [
    (Aug [All (mkAction 21504 [Entity 0])] m_spaces, Some a_coq_ccallback);
    (m_coq_comment, None);
    (m_coq_string, None);
    (Aug [All (mkAction 21505 [Entity (-1)])] m_newline, Some a_coq_ccallback);
    (Aug [All (mkAction 21506 [Entity 3])] (NotChr r_space), Some a_coq_ccallback)].

(** coq.rl:83 *)
Definition a_coq_ecallback : action := mkAction 21005 [Report "COQ_LANG" ["space"; "comment"; "string"; "any"]].

(** coq.rl:87-93 *)
Definition m_coq_comment_entity : rx :=
  CatFin (cats (Aug [Enter a_coq_comment_nc_res] (Lit (bytes "(*"))) [
    Star (alts (Aug [Finish a_coq_comment_nc_inc] (Lit (bytes "(*"))) [
      Aug [Finish a_coq_comment_nc_dec] (Lit (bytes "*)"));
      r_any])]) (Aug [When (IsZero 0) true] (Lit (bytes "*)"))).

(** coq.rl:95-100 *)
Definition i_coq_entity : instance :=
  Scanner [
    (Aug [All (mkAction 21508 [Entity 0])] (Plus r_space), Some a_coq_ecallback);
    (Aug [All (mkAction 21509 [Entity 1])] m_coq_comment_entity, Some a_coq_ecallback);
    (NotChr r_space, None)].

Definition the_parser : parser := mkParser [i_coq_line] "COQ_LANG".
Definition the_entities : parser := mkParser [i_coq_entity] "COQ_LANG".
