(** Transcription of /repo/src/parsers/php.rl: the line counting machine and the
    entity machine (written by tools/ragel/gen.py). *)
From Coq Require Import ZArith String List.
From Verif Require Import Base RagelSyntax.
From Verif.Parsers Require Import Common.
Import ListNotations.
Open Scope string_scope.
Open Scope Z_scope.
Open Scope list_scope.

(** php.rl:31 *)
Definition a_php_ccallback : action := mkAction 78001 [Switch [(0, Mls); (3, Mcode); ((-2), Minl "PHP_LANG"); ((-1), Mnl "PHP_LANG"); ((-3), Mblank "PHP_LANG")]].

(** php.rl:51-51 *)
Definition m_php_line_comment : rx :=
  cats (Aug [Finish a_comment] (alts (Lit (bytes "//")) [Lit (bytes "#")])) [Star m_nonnewline].

(** php.rl:52-59 *)
Definition m_php_block_comment : rx :=
  CatFin (cats (Aug [Finish a_comment] (Lit (bytes "/*"))) [
    Star (alts (Aug [Leave (mkAction 78501 [Entity (-2)]); Leave a_php_ccallback] m_newline) [
      m_ws;
      Aug [Finish a_comment] (Diff m_nonnewline m_ws)])]) (Lit (bytes "*/")).

(** php.rl:60-60 *)
Definition m_php_comment : rx :=
  alts m_php_line_comment [m_php_block_comment].

(** php.rl:62-71 *)
Definition m_php_sq_str : rx :=
  cats (Aug [Finish a_enqueue; Finish a_code] (Lit (bytes "'"))) [
    Star (alts (Aug [Leave (mkAction 78502 [Entity (-2)]); Leave a_php_ccallback] m_newline) [
      m_ws;
      Aug [Finish a_code] (NCls [(10, 10); (12, 13); (39, 39); (92, 92)]);
      cats (Lit (bytes "\")) [Aug [Finish a_code] m_nonnewline]]);
    Aug [Finish a_commit; Finish a_code] (Lit (bytes "'"))].

(** php.rl:72-81 *)
Definition m_php_dq_str : rx :=
  cats (Aug [Finish a_enqueue; Finish a_code] (Lit (bytes """"))) [
    Star (alts (Aug [Leave (mkAction 78503 [Entity (-2)]); Leave a_php_ccallback] m_newline) [
      m_ws;
      Aug [Finish a_code] (NCls [(10, 10); (12, 13); (34, 34); (92, 92)]);
      cats (Lit (bytes "\")) [Aug [Finish a_code] m_nonnewline]]);
    Aug [Finish a_commit; Finish a_code] (Lit (bytes """"))].

(** php.rl:83-83 *)
Definition m_php_string : rx :=
  alts m_php_sq_str [m_php_dq_str].

(** php.rl:85-91 *)
Definition i_php_line : instance :=
  Scanner [
    (Aug [All (mkAction 78504 [Entity 0])] m_spaces, Some a_php_ccallback);
    (m_php_comment, None);
    (m_php_string, None);
    (Aug [All (mkAction 78505 [Entity (-1)])] m_newline, Some a_php_ccallback);
    (Aug [All (mkAction 78506 [Entity 3])] (NotChr r_space), Some a_php_ccallback)].

(** php.rl:95 *)
Definition a_php_ecallback : action := mkAction 78002 [Report "PHP_LANG" ["space"; "comment"; "string"; "any"]].

(** php.rl:99-99 *)
Definition m_php_line_comment_entity : rx :=
  cats (alts (Lit (bytes "#")) [Lit (bytes "//")]) [Star m_nonnewline].

(** php.rl:100-100 *)
Definition m_php_block_comment_entity : rx :=
  CatFin (cats (Lit (bytes "/*")) [Star r_any]) (Lit (bytes "*/")).

(** php.rl:101-101 *)
Definition m_php_comment_entity : rx :=
  alts m_php_line_comment_entity [m_php_block_comment_entity].

(** php.rl:103-108 *)
Definition i_php_entity : instance :=
  Scanner [
    (Aug [All (mkAction 78507 [Entity 0])] (Plus r_space), Some a_php_ecallback);
    (Aug [All (mkAction 78508 [Entity 1])] m_php_comment_entity, Some a_php_ecallback);
    (NotChr r_space, None)].

Definition the_parser : parser := mkParser [i_php_line] "PHP_LANG".
Definition the_entities : parser := mkParser [i_php_entity] "PHP_LANG".
