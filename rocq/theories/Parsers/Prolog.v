(** Transcription of /repo/src/parsers/prolog.rl: the line counting machine and the
    entity machine (written by tools/ragel/gen.py). *)
From Coq Require Import ZArith String List.
From Verif Require Import Base RagelSyntax.
From Verif.Parsers Require Import Common.
Import ListNotations.
Open Scope string_scope.
Open Scope Z_scope.
Open Scope list_scope.

(** prolog.rl:31 *)
Definition a_prolog_ccallback : action := mkAction 83001 [Switch [(0, Mls); (3, Mcode); ((-2), Minl "PROLOG_LANG"); ((-1), Mnl "PROLOG_LANG")]].

(** prolog.rl:47-47 *)
Definition m_prolog_line_comment : rx :=
  cats (Aug [Finish a_comment] (Lit (bytes "%"))) [Star m_nonnewline].

(** prolog.rl:48-55 *)
Definition m_prolog_block_comment : rx :=
  CatFin (cats (Aug [Finish a_comment] (Lit (bytes "/*"))) [
    Star (alts (Aug [Leave (mkAction 83501 [Entity (-2)]); Leave a_prolog_ccallback] m_newline) [
      m_ws;
      Aug [Finish a_comment] (Diff m_nonnewline m_ws)])]) (Lit (bytes "*/")).

(** prolog.rl:56-56 *)
Definition m_prolog_comment : rx :=
  alts m_prolog_line_comment [m_prolog_block_comment].

(** prolog.rl:58-58 *)
Definition m_prolog_sq_str : rx :=
  cats (Aug [Finish a_code] (Lit (bytes "'"))) [
    Star (alts (NCls [(10, 10); (12, 13); (39, 39); (92, 92)]) [cats (Lit (bytes "\")) [m_nonnewline]]);
    Lit (bytes "'")].

(** prolog.rl:59-59 *)
Definition m_prolog_dq_str : rx :=
  cats (Aug [Finish a_code] (Lit (bytes """"))) [
    Star (alts (NCls [(10, 10); (12, 13); (34, 34); (92, 92)]) [cats (Lit (bytes "\")) [m_nonnewline]]);
    Lit (bytes """")].

(** prolog.rl:60-60 *)
Definition m_prolog_string : rx :=
  alts m_prolog_sq_str [m_prolog_dq_str].

(** prolog.rl:62-68 *)
Definition i_prolog_line : instance :=
  Scanner [
    (Aug [All (mkAction 83502 [Entity 0])] m_spaces, Some a_prolog_ccallback);
    (m_prolog_comment, None);
    (m_prolog_string, None);
    (Aug [All (mkAction 83503 [Entity (-1)])] m_newline, Some a_prolog_ccallback);
    (Aug [All (mkAction 83504 [Entity 3])] (NotChr r_space), Some a_prolog_ccallback)].

(** prolog.rl:72 *)
Definition a_prolog_ecallback : action := mkAction 83002 [Report "PROLOG_LANG" ["space"; "comment"; "string"; "any"]].

(** prolog.rl:77-77 *)
Definition m_prolog_line_comment_entity : rx :=
  cats (Lit (bytes "%")) [Star m_nonnewline].

(** prolog.rl:78-78 *)
Definition m_prolog_block_comment_entity : rx :=
  CatFin (cats (Lit (bytes "/*")) [Star r_any]) (Lit (bytes "*/")).

(** prolog.rl:79-79 *)
Definition m_prolog_comment_entity : rx :=
  alts m_prolog_line_comment_entity [m_prolog_block_comment_entity].

(** prolog.rl:81-86 *)
Definition i_prolog_entity : instance :=
  Scanner [
    (Aug [All (mkAction 83505 [Entity 0])] (Plus r_space), Some a_prolog_ecallback);
    (Aug [All (mkAction 83506 [Entity 1])] m_prolog_comment_entity, Some a_prolog_ecallback);
    (NotChr r_space, None)].

Definition the_parser : parser := mkParser [i_prolog_line] "PROLOG_LANG".
Definition the_entities : parser := mkParser [i_prolog_entity] "PROLOG_LANG".
