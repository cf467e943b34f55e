(** Transcription of /repo/src/parsers/dart.rl: the line counting machine and the
    entity machine (written by tools/ragel/gen.py). *)
From Coq Require Import ZArith String List.
From Verif Require Import Base RagelSyntax.
From Verif.Parsers Require Import Common.
Import ListNotations.
Open Scope string_scope.
Open Scope Z_scope.
Open Scope list_scope.

(** dart.rl:29 *)
Definition a_dart_ccallback : action := mkAction 26001 [Switch [(0, Mls); (2, Mcode); ((-2), Minl "DART_LANG"); ((-1), Mnl "DART_LANG")]].

(** dart.rl:45-52 *)
Definition m_dart_line_comment : rx :=
  cats (Aug [Finish a_comment] (Lit (bytes "//"))) [
    Star (alts (Aug [Leave (mkAction 26501 [Entity (-2)]); Leave a_dart_ccallback] m_escaped_newline) [
      m_ws;
      Aug [Finish a_comment] (Diff m_nonnewline m_ws)])].

(** dart.rl:53-60 *)
Definition m_dart_block_comment : rx :=
  CatFin (cats (Aug [Finish a_comment] (Lit (bytes "/*"))) [
    Star (alts (Aug [Leave (mkAction 26502 [Entity (-2)]); Leave a_dart_ccallback] m_newline) [
      m_ws;
      Aug [Finish a_comment] (Diff m_nonnewline m_ws)])]) (Lit (bytes "*/")).

(** dart.rl:61-61 *)
Definition m_dart_comment : rx :=
  alts m_dart_line_comment [m_dart_block_comment].

(** dart.rl:63-68 *)
Definition i_dart_line : instance :=
  Scanner [
    (Aug [All (mkAction 26503 [Entity 0])] m_spaces, Some a_dart_ccallback);
    (m_dart_comment, None);
    (Aug [All (mkAction 26504 [Entity (-1)])] m_newline, Some a_dart_ccallback);
    (Aug [All (mkAction 26505 [Entity 2])] (NotChr r_space), Some a_dart_ccallback)].

(** dart.rl:73 *)
Definition a_dart_ecallback : action := mkAction 26002 [Report "DART_LANG" ["space"; "comment"; "any"]].

(** dart.rl:77-77 *)
Definition m_dart_line_comment_entity : rx :=
  cats (Lit (bytes "//")) [Star (alts m_escaped_newline [m_nonnewline])].

(** dart.rl:78-78 *)
Definition m_dart_block_comment_entity : rx :=
  CatFin (cats (Lit (bytes "/*")) [Star r_any]) (Lit (bytes "*/")).

(** dart.rl:79-79 *)
Definition m_dart_comment_entity : rx :=
  alts m_dart_line_comment_entity [m_dart_block_comment_entity].

(** dart.rl:81-85 *)
Definition i_dart_entity : instance :=
  Scanner [
    (Aug [All (mkAction 26506 [Entity 0])] (Plus r_space), Some a_dart_ecallback);
    (Aug [All (mkAction 26507 [Entity 1])] m_dart_comment_entity, Some a_dart_ecallback);
    (NotChr r_space, None)].

Definition the_parser : parser := mkParser [i_dart_line] "DART_LANG".
Definition the_entities : parser := mkParser [i_dart_entity] "DART_LANG".
