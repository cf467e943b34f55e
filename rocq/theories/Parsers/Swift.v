(** Transcription of /repo/src/parsers/swift.rl: the line counting machine and the
    entity machine (written by tools/ragel/gen.py). *)
From Coq Require Import ZArith String List.
From Verif Require Import Base RagelSyntax.
From Verif.Parsers Require Import Common.
Import ListNotations.
Open Scope string_scope.
Open Scope Z_scope.
Open Scope list_scope.

(** swift.rl:29 *)
Definition a_swift_ccallback : action := mkAction 99001 [Switch [(0, Mls); (2, Mcode); ((-2), Minl "SWIFT_LANG"); ((-1), Mnl "SWIFT_LANG")]].

(** swift.rl:45-52 *)
Definition m_swift_line_comment : rx :=
  cats (Aug [Finish a_comment] (Lit (bytes "//"))) [
    Star (alts (Aug [Leave (mkAction 99501 [Entity (-2)]); Leave a_swift_ccallback] m_escaped_newline) [
      m_ws;
      Aug [Finish a_comment] (Diff m_nonnewline m_ws)])].

(** swift.rl:53-60 *)
Definition m_swift_block_comment : rx :=
  CatFin (cats (Aug [Finish a_comment] (Lit (bytes "/*"))) [
    Star (alts (Aug [Leave (mkAction 99502 [Entity (-2)]); Leave a_swift_ccallback] m_newline) [
      m_ws;
      Aug [Finish a_comment] (Diff m_nonnewline m_ws)])]) (Lit (bytes "*/")).

(** swift.rl:61-61 *)
Definition m_swift_comment : rx :=
  alts m_swift_line_comment [m_swift_block_comment].

(** swift.rl:63-68 *)
Definition i_swift_line : instance :=
  Scanner [
    (Aug [All (mkAction 99503 [Entity 0])] m_spaces, Some a_swift_ccallback);
    (m_swift_comment, None);
    (Aug [All (mkAction 99504 [Entity (-1)])] m_newline, Some a_swift_ccallback);
    (Aug [All (mkAction 99505 [Entity 2])] (NotChr r_space), Some a_swift_ccallback)].

(** swift.rl:70 *)
Definition a_swift_ecallback : action := mkAction 99002 [Report "SWIFT_LANG" ["space"; "comment"; "any"]].

(** swift.rl:74-74 *)
Definition m_swift_line_comment_entity : rx :=
  cats (Lit (bytes "//")) [Star (alts m_escaped_newline [m_nonnewline])].

(** swift.rl:75-75 *)
Definition m_swift_block_comment_entity : rx :=
  CatFin (cats (Lit (bytes "/*")) [Star r_any]) (Lit (bytes "*/")).

(** swift.rl:76-76 *)
Definition m_swift_comment_entity : rx :=
  alts m_swift_line_comment_entity [m_swift_block_comment_entity].

(** swift.rl:78-82 *)
Definition i_swift_entity : instance :=
  Scanner [
    (Aug [All (mkAction 99506 [Entity 0])] (Plus r_space), Some a_swift_ecallback);
    (Aug [All (mkAction 99507 [Entity 1])] m_swift_comment_entity, Some a_swift_ecallback);
    (NotChr r_space, None)].

Definition the_parser : parser := mkParser [i_swift_line] "SWIFT_LANG".
Definition the_entities : parser := mkParser [i_swift_entity] "SWIFT_LANG".
