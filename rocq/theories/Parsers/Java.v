(** Transcription of /repo/src/parsers/java.rl: the line counting machine and the
    entity machine (written by tools/ragel/gen.py). *)
From Coq Require Import ZArith String List.
From Verif Require Import Base RagelSyntax.
From Verif.Parsers Require Import Common.
Import ListNotations.
Open Scope string_scope.
Open Scope Z_scope.
Open Scope list_scope.

(** java.rl:33 *)
Definition a_java_ccallback : action := mkAction 49001 [Switch [(0, Mls); (7, Mcode); ((-2), Minl "JAVA_LANG"); ((-1), Mnl "JAVA_LANG")]].

(** java.rl:49-49 *)
Definition m_java_line_comment : rx :=
  cats (Aug [Finish a_comment] (Lit (bytes "//"))) [Star m_nonnewline].

(** java.rl:50-57 *)
Definition m_java_block_comment : rx :=
  CatFin (cats (Aug [Finish a_comment] (Lit (bytes "/*"))) [
    Star (alts (Aug [Leave (mkAction 49501 [Entity (-2)]); Leave a_java_ccallback] m_newline) [
      m_ws;
      Aug [Finish a_comment] (Diff m_nonnewline m_ws)])]) (Lit (bytes "*/")).

(** java.rl:58-58 *)
Definition m_java_comment : rx :=
  alts m_java_line_comment [m_java_block_comment].

(** java.rl:60-60 *)
Definition m_java_sq_str : rx :=
  cats (Aug [Finish a_code] (Lit (bytes "'"))) [
    Star (alts (NCls [(10, 10); (12, 13); (39, 39); (92, 92)]) [cats (Lit (bytes "\")) [m_nonnewline]]);
    Lit (bytes "'")].

(** java.rl:61-61 *)
Definition m_java_dq_str : rx :=
  cats (Aug [Finish a_code] (Lit (bytes """"))) [
    Star (alts (NCls [(10, 10); (12, 13); (34, 34); (92, 92)]) [cats (Lit (bytes "\")) [m_nonnewline]]);
    Lit (bytes """")].

(** java.rl:62-62 *)
Definition m_java_string : rx :=
  alts m_java_sq_str [m_java_dq_str].

(** java.rl:64-70 *)
Definition i_java_line : instance :=
  Scanner [
    (Aug [All (mkAction 49502 [Entity 0])] m_spaces, Some a_java_ccallback);
    (m_java_comment, None);
    (m_java_string, None);
    (Aug [All (mkAction 49503 [Entity (-1)])] m_newline, Some a_java_ccallback);
    (Aug [All (mkAction 49504 [Entity 7])] (NotChr r_space), Some a_java_ccallback)].

(** java.rl:74 *)
Definition a_java_ecallback : action := mkAction 49002 [Report "JAVA_LANG" ["space"; "comment"; "string"; "number"; "keyword"; "identifier"; "operator"; "any"]].

(** java.rl:78-78 *)
Definition m_java_line_comment_entity : rx :=
  cats (Lit (bytes "//")) [Star m_nonnewline].

(** java.rl:79-79 *)
Definition m_java_block_comment_entity : rx :=
  CatFin (cats (Lit (bytes "/*")) [Star r_any]) (Lit (bytes "*/")).

(** java.rl:80-80 *)
Definition m_java_comment_entity : rx :=
  alts m_java_line_comment_entity [m_java_block_comment_entity].

(** java.rl:82-87 *)
Definition i_java_entity : instance :=
  Scanner [
    (Aug [All (mkAction 49505 [Entity 0])] (Plus r_space), Some a_java_ecallback);
    (Aug [All (mkAction 49506 [Entity 1])] m_java_comment_entity, Some a_java_ecallback);
    (NotChr r_space, None)].

Definition the_parser : parser := mkParser [i_java_line] "JAVA_LANG".
Definition the_entities : parser := mkParser [i_java_entity] "JAVA_LANG".
