(** Transcription of /repo/src/parsers/forth.rl: the line counting machine and the
    entity machine (written by tools/ragel/gen.py). *)
From Coq Require Import ZArith String List.
From Verif Require Import Base RagelSyntax.
From Verif.Parsers Require Import Common.
Import ListNotations.
Open Scope string_scope.
Open Scope Z_scope.
Open Scope list_scope.

(** forth.rl:32 *)
Definition a_forth_ccallback : action := mkAction 35001 [Switch [(0, Mls); (3, Mcode); ((-2), Minl "FORTH_LANG"); ((-1), Mnl "FORTH_LANG")]].

(** forth.rl:48-48 *)
Definition m_forth_line_comment : rx :=
  cats (Aug [Finish a_comment] (Lit (bytes "\"))) [Star m_nonnewline].

(** forth.rl:49-56 *)
Definition m_forth_block_comment : rx :=
  CatFin (cats (Aug [Finish a_comment] (Lit (bytes "("))) [
    Star (alts (Aug [Leave (mkAction 35501 [Entity (-2)]); Leave a_forth_ccallback] m_newline) [
      m_ws;
      Aug [Finish a_comment] (Diff m_nonnewline m_ws)])]) (Lit (bytes ")")).

(** forth.rl:57-57 *)
Definition m_forth_comment : rx :=
  alts m_forth_line_comment [m_forth_block_comment].

(** forth.rl:59-59 *)
Definition m_forth_string : rx :=
  cats (Aug [Finish a_code] (Lit (bytes """"))) [
    Star (NCls [(10, 10); (12, 13); (34, 34)]);
    Lit (bytes """")].

(** forth.rl:61-67 *)
Definition i_forth_line : instance :=
  Scanner [
    (Aug [All (mkAction 35502 [Entity 0])] m_spaces, Some a_forth_ccallback);
    (m_forth_comment, None);
    (m_forth_string, None);
    (Aug [All (mkAction 35503 [Entity (-1)])] m_newline, Some a_forth_ccallback);
    (Aug [All (mkAction 35504 [Entity 3])] (NotChr r_space), Some a_forth_ccallback)].

(** forth.rl:71 *)
Definition a_forth_ecallback : action := mkAction 35002 [Report "FORTH_LANG" ["space"; "comment"; "string"; "any"]].

(** forth.rl:75-75 *)
Definition m_forth_line_comment_entity : rx :=
  cats (Lit (bytes "\")) [Star m_nonnewline].

(** forth.rl:76-76 *)
Definition m_forth_block_comment_entity : rx :=
  CatFin (cats (Lit (bytes "(")) [Star r_any]) (Lit (bytes ")")).

(** forth.rl:77-77 *)
Definition m_forth_comment_entity : rx :=
  alts m_forth_line_comment_entity [m_forth_block_comment_entity].

(** forth.rl:79-84 *)
Definition i_forth_entity : instance :=
  Scanner [
    (Aug [All (mkAction 35505 [Entity 0])] (Plus r_space), Some a_forth_ecallback);
    (Aug [All (mkAction 35506 [Entity 1])] m_forth_comment_entity, Some a_forth_ecallback);
    (NotChr r_space, None)].

Definition the_parser : parser := mkParser [i_forth_line] "FORTH_LANG".
Definition the_entities : parser := mkParser [i_forth_entity] "FORTH_LANG".
