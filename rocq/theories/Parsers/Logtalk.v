(** Transcription of /repo/src/parsers/logtalk.rl: the line counting machine and the
    entity machine (written by tools/ragel/gen.py). *)
From Coq Require Import ZArith String List.
From Verif Require Import Base RagelSyntax.
From Verif.Parsers Require Import Common.
Import ListNotations.
Open Scope string_scope.
Open Scope Z_scope.
Open Scope list_scope.

(** logtalk.rl:31 *)
Definition a_logtalk_ccallback : action := mkAction 57001 [Switch [(0, Mls); (3, Mcode); ((-2), Minl "LOGTALK_LANG"); ((-1), Mnl "LOGTALK_LANG")]].

(** logtalk.rl:47-47 *)
Definition m_logtalk_line_comment : rx :=
  cats (Aug [Finish a_comment] (Lit (bytes "%"))) [Star m_nonnewline].

(** logtalk.rl:48-55 *)
Definition m_logtalk_block_comment : rx :=
  CatFin (cats (Aug [Finish a_comment] (Lit (bytes "/*"))) [
    Star (alts (Aug [Leave (mkAction 57501 [Entity (-2)]); Leave a_logtalk_ccallback] m_newline) [
      m_ws;
      Aug [Finish a_comment] (Diff m_nonnewline m_ws)])]) (Lit (bytes "*/")).

(** logtalk.rl:56-56 *)
Definition m_logtalk_comment : rx :=
  alts m_logtalk_line_comment [m_logtalk_block_comment].

(** logtalk.rl:58-58 *)
Definition m_logtalk_sq_str : rx :=
  cats (Aug [Finish a_code] (Lit (bytes "'"))) [
    Star (alts (NCls [(10, 10); (12, 13); (39, 39); (92, 92)]) [cats (Lit (bytes "\")) [m_nonnewline]]);
    Lit (bytes "'")].

(** logtalk.rl:59-59 *)
Definition m_logtalk_dq_str : rx :=
  cats (Aug [Finish a_code] (Lit (bytes """"))) [
    Star (alts (NCls [(10, 10); (12, 13); (34, 34); (92, 92)]) [cats (Lit (bytes "\")) [m_nonnewline]]);
    Lit (bytes """")].

(** logtalk.rl:60-60 *)
Definition m_logtalk_string : rx :=
  alts m_logtalk_sq_str [m_logtalk_dq_str].

(** logtalk.rl:62-68 *)
Definition i_logtalk_line : instance :=
  Scanner [
    (Aug [All (mkAction 57502 [Entity 0])] m_spaces, Some a_logtalk_ccallback);
    (m_logtalk_comment, None);
    (m_logtalk_string, None);
    (Aug [All (mkAction 57503 [Entity (-1)])] m_newline, Some a_logtalk_ccallback);
    (Aug [All (mkAction 57504 [Entity 3])] (NotChr r_space), Some a_logtalk_ccallback)].

(** logtalk.rl:72 *)
Definition a_logtalk_ecallback : action := mkAction 57002 [Report "LOGTALK_LANG" ["space"; "comment"; "string"; "any"]].

(** logtalk.rl:77-77 *)
Definition m_logtalk_line_comment_entity : rx :=
  cats (Lit (bytes "%")) [Star m_nonnewline].

(** logtalk.rl:78-78 *)
Definition m_logtalk_block_comment_entity : rx :=
  CatFin (cats (Lit (bytes "/*")) [Star r_any]) (Lit (bytes "*/")).

(** logtalk.rl:79-79 *)
Definition m_logtalk_comment_entity : rx :=
  alts m_logtalk_line_comment_entity [m_logtalk_block_comment_entity].

(** logtalk.rl:81-86 *)
Definition i_logtalk_entity : instance :=
  Scanner [
    (Aug [All (mkAction 57505 [Entity 0])] (Plus r_space), Some a_logtalk_ecallback);
    (Aug [All (mkAction 57506 [Entity 1])] m_logtalk_comment_entity, Some a_logtalk_ecallback);
    (NotChr r_space, None)].

Definition the_parser : parser := mkParser [i_logtalk_line] "LOGTALK_LANG".
Definition the_entities : parser := mkParser [i_logtalk_entity] "LOGTALK_LANG".
