(** Transcription of /repo/src/parsers/scala.rl: the line counting machine and the
    entity machine (written by tools/ragel/gen.py). *)
From Coq Require Import ZArith String List.
From Verif Require Import Base RagelSyntax.
From Verif.Parsers Require Import Common.
Import ListNotations.
Open Scope string_scope.
Open Scope Z_scope.
Open Scope list_scope.

(** scala.rl:31 *)
Definition a_scala_ccallback : action := mkAction 92001 [Switch [(0, Mls); (3, Mcode); ((-2), Minl "SCALA_LANG"); ((-1), Mnl "SCALA_LANG")]].

(** scala.rl:47-47 *)
Definition m_scala_line_comment : rx :=
  cats (Aug [Finish a_comment] (Lit (bytes "//"))) [Star m_nonnewline].

(** scala.rl:48-55 *)
Definition m_scala_block_comment : rx :=
  CatFin (cats (Aug [Finish a_comment] (Lit (bytes "/*"))) [
    Star (alts (Aug [Leave (mkAction 92501 [Entity (-2)]); Leave a_scala_ccallback] m_newline) [
      m_ws;
      Aug [Finish a_comment] (Diff m_nonnewline m_ws)])]) (Lit (bytes "*/")).

(** scala.rl:56-56 *)
Definition m_scala_comment : rx :=
  alts m_scala_line_comment [m_scala_block_comment].

(** scala.rl:58-58 *)
Definition m_scala_sq_str : rx :=
  cats (Aug [Finish a_code] (Lit (bytes "'"))) [
    Star (alts (NCls [(10, 10); (12, 13); (39, 39); (92, 92)]) [cats (Lit (bytes "\")) [m_nonnewline]]);
    Lit (bytes "'")].

(** scala.rl:59-59 *)
Definition m_scala_dq_str : rx :=
  cats (Aug [Finish a_code] (Lit (bytes """"))) [
    Star (alts (NCls [(10, 10); (12, 13); (34, 34); (92, 92)]) [cats (Lit (bytes "\")) [m_nonnewline]]);
    Lit (bytes """")].

(** scala.rl:60-60 *)
Definition m_scala_string : rx :=
  alts m_scala_sq_str [m_scala_dq_str].

(** scala.rl:62-68 *)
Definition i_scala_line : instance :=
  Scanner [
    (Aug [All (mkAction 92502 [Entity 0])] m_spaces, Some a_scala_ccallback);
    (m_scala_comment, None);
    (m_scala_string, None);
    (Aug [All (mkAction 92503 [Entity (-1)])] m_newline, Some a_scala_ccallback);
    (Aug [All (mkAction 92504 [Entity 3])] (NotChr r_space), Some a_scala_ccallback)].

(** scala.rl:72 *)
Definition a_scala_ecallback : action := mkAction 92002 [Report "SCALA_LANG" ["space"; "comment"; "string"; "any"]].

(** scala.rl:76-76 *)
Definition m_scala_line_comment_entity : rx :=
  cats (Lit (bytes "//")) [Star m_nonnewline].

(** scala.rl:77-77 *)
Definition m_scala_block_comment_entity : rx :=
  CatFin (cats (Lit (bytes "/*")) [Star r_any]) (Lit (bytes "*/")).

(** scala.rl:78-78 *)
Definition m_scala_comment_entity : rx :=
  alts m_scala_line_comment_entity [m_scala_block_comment_entity].

(** scala.rl:80-85 *)
Definition i_scala_entity : instance :=
  Scanner [
    (Aug [All (mkAction 92505 [Entity 0])] (Plus r_space), Some a_scala_ecallback);
    (Aug [All (mkAction 92506 [Entity 1])] m_scala_comment_entity, Some a_scala_ecallback);
    (NotChr r_space, None)].

Definition the_parser : parser := mkParser [i_scala_line] "SCALA_LANG".
Definition the_entities : parser := mkParser [i_scala_entity] "SCALA_LANG".
