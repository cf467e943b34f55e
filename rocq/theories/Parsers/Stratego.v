(** Transcription of /repo/src/parsers/stratego.rl: the line counting machine and the
    entity machine (written by tools/ragel/gen.py). *)
From Coq Require Import ZArith String List.
From Verif Require Import Base RagelSyntax.
From Verif.Parsers Require Import Common.
Import ListNotations.
Open Scope string_scope.
Open Scope Z_scope.
Open Scope list_scope.

(** stratego.rl:29 *)
Definition a_stratego_ccallback : action := mkAction 97001 [Switch [(0, Mls); (3, Mcode); ((-2), Minl "STRATEGO_LANG"); ((-1), Mnl "STRATEGO_LANG")]].

(** stratego.rl:45-52 *)
Definition m_stratego_line_comment : rx :=
  cats (Aug [Finish a_comment] (Lit (bytes "//"))) [
    Star (alts (Aug [Leave (mkAction 97501 [Entity (-2)]); Leave a_stratego_ccallback] m_escaped_newline) [
      m_ws;
      Aug [Finish a_comment] (Diff m_nonnewline m_ws)])].

(** stratego.rl:54-61 *)
Definition m_stratego_block_comment : rx :=
  CatFin (cats (Aug [Finish a_comment] (Lit (bytes "/*"))) [
    Star (alts (Aug [Leave (mkAction 97502 [Entity (-2)]); Leave a_stratego_ccallback] m_newline) [
      m_ws;
      Aug [Finish a_comment] (Diff m_nonnewline m_ws)])]) (Lit (bytes "*/")).

(** stratego.rl:63-63 *)
Definition m_stratego_comment : rx :=
  alts m_stratego_line_comment [m_stratego_block_comment].

(** stratego.rl:65-74 *)
Definition m_stratego_dq_str : rx :=
  cats (Aug [Finish a_code] (Lit (bytes """"))) [
    Star (alts (Aug [Leave (mkAction 97503 [Entity (-2)]); Leave a_stratego_ccallback] m_escaped_newline) [
      m_ws;
      Aug [Finish a_code] (NCls [(9, 9); (32, 32); (34, 34); (92, 92)]);
      cats (Lit (bytes "\")) [Aug [Finish a_code] m_nonnewline]]);
    Lit (bytes """")].

(** stratego.rl:76-81 *)
Definition m_stratego_char_str : rx :=
  cats (Lit (bytes "'")) [
    alts (Aug [Finish a_code] (cats (Lit (bytes "\")) [Cls [(46, 46)]; Lit (bytes "'")])) [
      Aug [Finish a_code] (cats (NCls [(39, 39); (92, 92)]) [Lit (bytes "'")])]].

(** stratego.rl:83-83 *)
Definition m_stratego_string : rx :=
  alts m_stratego_dq_str [m_stratego_char_str].

(** stratego.rl:85-91 *)
Definition i_stratego_line : instance :=
  Scanner [
    (Aug [All (mkAction 97504 [Entity 0])] m_spaces, Some a_stratego_ccallback);
    (m_stratego_comment, None);
    (m_stratego_string, None);
    (Aug [All (mkAction 97505 [Entity (-1)])] m_newline, Some a_stratego_ccallback);
    (Aug [All (mkAction 97506 [Entity 3])] (NotChr r_space), Some a_stratego_ccallback)].

(** stratego.rl:95 *)
Definition a_stratego_ecallback : action := mkAction 97002 [Report "STRATEGO_LANG" ["space"; "comment"; "string"; "any"]].

(** stratego.rl:100-100 *)
Definition m_stratego_line_comment_entity : rx :=
  cats (Lit (bytes "//")) [Star (alts m_escaped_newline [m_nonnewline])].

(** stratego.rl:101-101 *)
Definition m_stratego_block_comment_entity : rx :=
  CatFin (cats (Lit (bytes "/*")) [Star r_any]) (Lit (bytes "*/")).

(** stratego.rl:102-102 *)
Definition m_stratego_comment_entity : rx :=
  alts m_stratego_line_comment_entity [m_stratego_block_comment_entity].

(** stratego.rl:103-103 *)
Definition m_stratego_string_entity : rx :=
  alts m_dq_str_with_escapes [
    cats (Lit (bytes "'")) [
      alts (cats (Lit (bytes "\")) [Cls [(46, 46)]; Lit (bytes "'")]) [
        cats (NCls [(39, 39); (92, 92)]) [Lit (bytes "'")]]]].

(** stratego.rl:105-111 *)
Definition i_stratego_entity : instance :=
  Scanner [
    (Aug [All (mkAction 97507 [Entity 0])] (Plus r_space), Some a_stratego_ecallback);
    (Aug [All (mkAction 97508 [Entity 1])] m_stratego_comment_entity, Some a_stratego_ecallback);
    (Aug [All (mkAction 97509 [Entity 2])] m_stratego_string_entity, Some a_stratego_ecallback);
    (NotChr r_space, None)].

Definition the_parser : parser := mkParser [i_stratego_line] "STRATEGO_LANG".
Definition the_entities : parser := mkParser [i_stratego_entity] "STRATEGO_LANG".
