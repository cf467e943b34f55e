(** Transcription of /repo/src/parsers/umple.rl: the line counting machine and the
    entity machine (written by tools/ragel/gen.py). *)
From Coq Require Import ZArith String List.
From Verif Require Import Base RagelSyntax.
From Verif.Parsers Require Import Common.
Import ListNotations.
Open Scope string_scope.
Open Scope Z_scope.
Open Scope list_scope.

(** umple.rl:33 *)
Definition a_umple_ccallback : action := mkAction 103001 [Switch [(0, Mls); (7, Mcode); ((-2), Minl "UMPLE_LANG"); ((-1), Mnl "UMPLE_LANG")]].

(** umple.rl:49-49 *)
Definition m_umple_line_comment : rx :=
  cats (Aug [Finish a_comment] (Lit (bytes "//"))) [Star m_nonnewline].

(** umple.rl:50-57 *)
Definition m_umple_block_comment : rx :=
  CatFin (cats (Aug [Finish a_comment] (Lit (bytes "/*"))) [
    Star (alts (Aug [Leave (mkAction 103501 [Entity (-2)]); Leave a_umple_ccallback] m_newline) [
      m_ws;
      Aug [Finish a_comment] (Diff m_nonnewline m_ws)])]) (Lit (bytes "*/")).

(** umple.rl:58-58 *)
Definition m_umple_comment : rx :=
  alts m_umple_line_comment [m_umple_block_comment].

(** umple.rl:60-60 *)
Definition m_umple_sq_str : rx :=
  cats (Aug [Finish a_code] (Lit (bytes "'"))) [
    Star (alts (NCls [(10, 10); (12, 13); (39, 39); (92, 92)]) [cats (Lit (bytes "\")) [m_nonnewline]]);
    Lit (bytes "'")].

(** umple.rl:61-61 *)
Definition m_umple_dq_str : rx :=
  cats (Aug [Finish a_code] (Lit (bytes """"))) [
    Star (alts (NCls [(10, 10); (12, 13); (34, 34); (92, 92)]) [cats (Lit (bytes "\")) [m_nonnewline]]);
    Lit (bytes """")].

(** umple.rl:62-62 *)
Definition m_umple_string : rx :=
  alts m_umple_sq_str [m_umple_dq_str].

(** umple.rl:64-70 *)
Definition i_umple_line : instance :=
  Scanner [
    (Aug [All (mkAction 103502 [Entity 0])] m_spaces, Some a_umple_ccallback);
    (m_umple_comment, None);
    (m_umple_string, None);
    (Aug [All (mkAction 103503 [Entity (-1)])] m_newline, Some a_umple_ccallback);
    (Aug [All (mkAction 103504 [Entity 7])] (NotChr r_space), Some a_umple_ccallback)].

(** umple.rl:74 *)
Definition a_umple_ecallback : action := mkAction 103002 [Report "UMPLE_LANG" ["space"; "comment"; "string"; "number"; "keyword"; "identifier"; "operator"; "any"]].

(** umple.rl:78-78 *)
Definition m_umple_line_comment_entity : rx :=
  cats (Lit (bytes "//")) [Star m_nonnewline].

(** umple.rl:79-79 *)
Definition m_umple_block_comment_entity : rx :=
  CatFin (cats (Lit (bytes "/*")) [Star r_any]) (Lit (bytes "*/")).

(** umple.rl:80-80 *)
Definition m_umple_comment_entity : rx :=
  alts m_umple_line_comment_entity [m_umple_block_comment_entity].

(** umple.rl:82-87 *)
Definition i_umple_entity : instance :=
  Scanner [
    (Aug [All (mkAction 103505 [Entity 0])] (Plus r_space), Some a_umple_ecallback);
    (Aug [All (mkAction 103506 [Entity 1])] m_umple_comment_entity, Some a_umple_ecallback);
    (NotChr r_space, None)].

Definition the_parser : parser := mkParser [i_umple_line] "UMPLE_LANG".
Definition the_entities : parser := mkParser [i_umple_entity] "UMPLE_LANG".
