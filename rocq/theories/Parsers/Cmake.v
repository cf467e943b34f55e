(** Transcription of /repo/src/parsers/cmake.rl: the line counting machine and the
    entity machine (written by tools/ragel/gen.py). *)
From Coq Require Import ZArith String List.
From Verif Require Import Base RagelSyntax.
From Verif.Parsers Require Import Common.
Import ListNotations.
Open Scope string_scope.
Open Scope Z_scope.
Open Scope list_scope.

(** cmake.rl:36 *)
Definition a_cmake_ccallback : action := mkAction 19001 [Switch [(0, Mls); (3, Mcode); ((-2), Minl "CMAKE_LANG"); ((-1), Mnl "CMAKE_LANG")]].

(** cmake.rl:56-56 *)
Definition m_cmake_comment : rx :=
  cats (Aug [Finish a_comment] (Lit (bytes "#"))) [Star m_nonnewline].

(** cmake.rl:58-67 *)
Definition m_cmake_dq_str : rx :=
  cats (Aug [Finish a_enqueue; Finish a_code] (Lit (bytes """"))) [
    Star (alts (Aug [Leave (mkAction 19501 [Entity (-2)]); Leave a_cmake_ccallback] m_newline) [
      m_ws;
      Aug [Finish a_code] (NCls [(9, 10); (12, 13); (32, 32); (34, 34); (92, 92)]);
      cats (Lit (bytes "\")) [Aug [Finish a_code] m_nonnewline]]);
    Aug [Finish a_code; Finish a_commit] (Lit (bytes """"))].

(** cmake.rl:69-69 *)
Definition m_cmake_string : rx :=
  m_cmake_dq_str.

(** cmake.rl:71-77 *)
Definition i_cmake_line : instance :=
  Scanner [
    (Aug [All (mkAction 19502 [Entity 0])] m_spaces, Some a_cmake_ccallback);
    (m_cmake_comment, None);
    (m_cmake_string, None);
    (Aug [All (mkAction 19503 [Entity (-1)])] m_newline, Some a_cmake_ccallback);
    (Aug [All (mkAction 19504 [Entity 3])] (NotChr r_space), Some a_cmake_ccallback)].

(** cmake.rl:81 *)
Definition a_cmake_ecallback : action := mkAction 19003 [Report "CMAKE_LANG" ["space"; "comment"; "string"; "any"]].

(** cmake.rl:85-85 *)
Definition m_cmake_comment_entity : rx :=
  cats (Lit (bytes "#")) [Star m_nonnewline].

(** cmake.rl:87-92 *)
Definition i_cmake_entity : instance :=
  Scanner [
    (Aug [All (mkAction 19505 [Entity 0])] (Plus r_space), Some a_cmake_ecallback);
    (Aug [All (mkAction 19506 [Entity 1])] m_cmake_comment_entity, Some a_cmake_ecallback);
    (NotChr r_space, None)].

Definition the_parser : parser := mkParser [i_cmake_line] "CMAKE_LANG".
Definition the_entities : parser := mkParser [i_cmake_entity] "CMAKE_LANG".
