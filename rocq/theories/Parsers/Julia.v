(** Transcription of /repo/src/parsers/julia.rl: the line counting machine and the
    entity machine (written by tools/ragel/gen.py). *)
From Coq Require Import ZArith String List.
From Verif Require Import Base RagelSyntax.
From Verif.Parsers Require Import Common.
Import ListNotations.
Open Scope string_scope.
Open Scope Z_scope.
Open Scope list_scope.

(** julia.rl:29 *)
Definition a_julia_ccallback : action := mkAction 52001 [Switch [(0, Mls); (3, Mcode); ((-2), Minl "JULIA_LANG"); ((-1), Mnl "JULIA_LANG")]].

(** julia.rl:45-45 *)
Definition m_julia_line_comment : rx :=
  cats (Aug [Finish a_comment] (Lit (bytes "#"))) [Star m_nonnewline].

(** julia.rl:46-53 *)
Definition m_julia_block_comment : rx :=
  CatFin (cats (Aug [Finish a_comment] (Lit (bytes "#="))) [
    Star (alts (Aug [Leave (mkAction 52501 [Entity (-2)]); Leave a_julia_ccallback] m_newline) [
      m_ws;
      Aug [Finish a_comment] (Diff m_nonnewline m_ws)])]) (Lit (bytes "=#")).

(** julia.rl:54-61 *)
Definition m_julia_sq_doc_str : rx :=
  CatFin (cats (Aug [Finish a_comment] (Lit (bytes "'''"))) [
    Star (alts (Aug [Leave (mkAction 52502 [Entity (-2)]); Leave a_julia_ccallback] m_newline) [
      m_ws;
      Aug [Finish a_comment] (Diff m_nonnewline m_ws)])]) (Aug [Finish a_comment] (Lit (bytes "'''"))).

(** julia.rl:62-69 *)
Definition m_julia_dq_doc_str : rx :=
  CatFin (cats (Aug [Finish a_comment] (Lit (bytes """"""""))) [
    Star (alts (Aug [Leave (mkAction 52503 [Entity (-2)]); Leave a_julia_ccallback] m_newline) [
      m_ws;
      Aug [Finish a_comment] (Diff m_nonnewline m_ws)])]) (Aug [Finish a_comment] (Lit (bytes """"""""))).

(** julia.rl:70-71 *)
Definition m_julia_comment : rx :=
  alts m_julia_line_comment [m_julia_block_comment; m_julia_sq_doc_str; m_julia_dq_doc_str].

(** julia.rl:74-76 *)
Definition m_julia_sq_str : rx :=
  cats (Lit (bytes "'")) [
    Aug [Finish (mkAction 52505 [Hold])] (alts (NCls [(39, 39)]) [
      cats (Lit (bytes "'")) [Aug [Finish (mkAction 52504 [Hold])] (NCls [(39, 39)])]]);
    Star (alts (NCls [(10, 10); (12, 13); (39, 39); (92, 92)]) [cats (Lit (bytes "\")) [m_nonnewline]]);
    Lit (bytes "'")].

(** julia.rl:77-79 *)
Definition m_julia_dq_str : rx :=
  cats (Lit (bytes """")) [
    Aug [Finish (mkAction 52507 [Hold])] (alts (NCls [(34, 34)]) [
      cats (Lit (bytes """")) [Aug [Finish (mkAction 52506 [Hold])] (NCls [(34, 34)])]]);
    Star (alts (NCls [(10, 10); (12, 13); (34, 34); (92, 92)]) [cats (Lit (bytes "\")) [m_nonnewline]]);
    Lit (bytes """")].

(** julia.rl:80-80 *)
Definition m_julia_string : rx :=
  Aug [Finish a_code] (alts m_julia_sq_str [m_julia_dq_str]).

(** julia.rl:82-88 *)
Definition i_julia_line : instance :=
  Scanner [
    (Aug [All (mkAction 52508 [Entity 0])] m_spaces, Some a_julia_ccallback);
    (m_julia_comment, None);
    (m_julia_string, None);
    (Aug [All (mkAction 52509 [Entity (-1)])] m_newline, Some a_julia_ccallback);
    (Aug [All (mkAction 52510 [Entity 3])] (NotChr r_space), Some a_julia_ccallback)].

(** julia.rl:92 *)
Definition a_julia_ecallback : action := mkAction 52002 [Report "JULIA_LANG" ["space"; "comment"; "string"; "any"]].

(** julia.rl:96-96 *)
Definition m_julia_line_comment_entity : rx :=
  cats (Lit (bytes "#")) [Star m_nonnewline].

(** julia.rl:97-97 *)
Definition m_julia_block_comment_entity : rx :=
  CatFin (cats (Lit (bytes "#=")) [Star r_any]) (Lit (bytes "=#")).

(** julia.rl:98-98 *)
Definition m_julia_sq_doc_str_entity : rx :=
  CatFin (cats (Lit (bytes "'''")) [Star r_any]) (Lit (bytes "'''")).

(** julia.rl:99-99 *)
Definition m_julia_dq_doc_str_entity : rx :=
  CatFin (cats (Lit (bytes """""""")) [Star r_any]) (Lit (bytes """""""")).

(** julia.rl:100-101 *)
Definition m_julia_comment_entity : rx :=
  alts m_julia_line_comment_entity [
    m_julia_block_comment_entity;
    m_julia_sq_doc_str_entity;
    m_julia_dq_doc_str_entity].

(** julia.rl:103-107 *)
Definition i_julia_entity : instance :=
  Scanner [
    (Aug [All (mkAction 52511 [Entity 0])] (Plus r_space), Some a_julia_ecallback);
    (Aug [All (mkAction 52512 [Entity 1])] m_julia_comment_entity, Some a_julia_ecallback);
    (NotChr r_space, None)].

Definition the_parser : parser := mkParser [i_julia_line] "JULIA_LANG".
Definition the_entities : parser := mkParser [i_julia_entity] "JULIA_LANG".
