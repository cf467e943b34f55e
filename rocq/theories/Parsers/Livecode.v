(** Transcription of /repo/src/parsers/livecode.rl: the line counting machine and the
    entity machine (written by tools/ragel/gen.py). *)
From Coq Require Import ZArith String List.
From Verif Require Import Base RagelSyntax.
From Verif.Parsers Require Import Common.
Import ListNotations.
Open Scope string_scope.
Open Scope Z_scope.
Open Scope list_scope.

(** livecode.rl:31 *)
Definition a_livecode_ccallback : action := mkAction 56001 [Switch [(0, Mls); (3, Mcode); ((-2), Minl "LIVECODE_LANG"); ((-1), Mnl "LIVECODE_LANG")]].

(** livecode.rl:47-47 *)
Definition m_livecode_line_comment : rx :=
  cats (Aug [Finish a_comment] (alts (Lit (bytes "--")) [Lit (bytes "#"); Lit (bytes "//")])) [
    Star m_nonnewline].

(** livecode.rl:48-55 *)
Definition m_livecode_block_comment : rx :=
  CatFin (cats (Aug [Finish a_comment] (Lit (bytes "/*"))) [
    Star (alts (Aug [Leave (mkAction 56501 [Entity (-2)]); Leave a_livecode_ccallback] m_newline) [
      m_ws;
      Aug [Finish a_comment] (Diff m_nonnewline m_ws)])]) (Lit (bytes "*/")).

(** livecode.rl:57-57 *)
Definition m_livecode_comment : rx :=
  alts m_livecode_line_comment [m_livecode_block_comment].

(** livecode.rl:59-59 *)
Definition m_livecode_string : rx :=
  cats (Aug [Finish a_code] (Lit (bytes """"))) [
    Star (alts (NCls [(10, 10); (12, 13); (34, 34); (92, 92)]) [cats (Lit (bytes "\")) [m_nonnewline]]);
    Lit (bytes """")].

(** livecode.rl:61-67 *)
Definition i_livecode_line : instance :=
  Scanner [
    (Aug [All (mkAction 56502 [Entity 0])] m_spaces, Some a_livecode_ccallback);
    (m_livecode_comment, None);
    (m_livecode_string, None);
    (Aug [All (mkAction 56503 [Entity (-1)])] m_newline, Some a_livecode_ccallback);
    (Aug [All (mkAction 56504 [Entity 3])] (NotChr r_space), Some a_livecode_ccallback)].

(** livecode.rl:71 *)
Definition a_livecode_ecallback : action := mkAction 56002 [Report "LIVECODE_LANG" ["space"; "comment"; "string"; "any"]].

(** livecode.rl:75-75 *)
Definition m_livecode_line_comment_entity : rx :=
  cats (alts (Lit (bytes "--")) [Lit (bytes "#"); Lit (bytes "//")]) [Star m_nonnewline].

(** livecode.rl:76-76 *)
Definition m_livecode_block_comment_entity : rx :=
  CatFin (cats (Lit (bytes "/*")) [Star r_any]) (Lit (bytes "*/")).

(** livecode.rl:77-77 *)
Definition m_livecode_comment_entity : rx :=
  alts m_livecode_line_comment_entity [m_livecode_block_comment_entity].

(** livecode.rl:79-84 *)
Definition i_livecode_entity : instance :=
  Scanner [
    (Aug [All (mkAction 56505 [Entity 0])] (Plus r_space), Some a_livecode_ecallback);
    (Aug [All (mkAction 56506 [Entity 1])] m_livecode_comment_entity, Some a_livecode_ecallback);
    (NotChr r_space, None)].

Definition the_parser : parser := mkParser [i_livecode_line] "LIVECODE_LANG".
Definition the_entities : parser := mkParser [i_livecode_entity] "LIVECODE_LANG".
