(** Transcription of /repo/src/parsers/pascal.rl: the line counting machine and the
    entity machine (written by tools/ragel/gen.py). *)
From Coq Require Import ZArith String List.
From Verif Require Import Base RagelSyntax.
From Verif.Parsers Require Import Common.
Import ListNotations.
Open Scope string_scope.
Open Scope Z_scope.
Open Scope list_scope.

(** pascal.rl:31 *)
Definition a_pascal_ccallback : action := mkAction 76001 [Switch [(0, Mls); (3, Mcode); ((-2), Minl "PASCAL_LANG"); ((-1), Mnl "PASCAL_LANG")]].

(** pascal.rl:47-47 *)
Definition m_pascal_line_comment : rx :=
  cats (Aug [Finish a_comment] (Lit (bytes "//"))) [Star m_nonnewline].

(** pascal.rl:48-55 *)
Definition m_pascal_old_block_comment : rx :=
  CatFin (cats (Aug [Finish a_comment] (Lit (bytes "(*"))) [
    Star (alts (Aug [Leave (mkAction 76501 [Entity (-2)]); Leave a_pascal_ccallback] m_newline) [
      m_ws;
      Aug [Finish a_code] (Diff m_nonnewline m_ws)])]) (Lit (bytes "*)")).

(** pascal.rl:56-63 *)
Definition m_pascal_turbo_block_comment : rx :=
  CatFin (cats (Aug [Finish a_comment] (Lit (bytes "{"))) [
    Star (alts (Aug [Leave (mkAction 76502 [Entity (-2)]); Leave a_pascal_ccallback] m_newline) [
      m_ws;
      Aug [Finish a_comment] (Diff m_nonnewline m_ws)])]) (Lit (bytes "}")).

(** pascal.rl:64-65 *)
Definition m_pascal_comment : rx :=
  alts m_pascal_line_comment [m_pascal_old_block_comment; m_pascal_turbo_block_comment].

(** pascal.rl:67-76 *)
Definition m_pascal_string : rx :=
  cats (Aug [Finish a_code] (Lit (bytes "'"))) [
    Star (alts (Aug [Leave (mkAction 76503 [Entity (-2)]); Leave a_pascal_ccallback] m_newline) [
      m_ws;
      Aug [Finish a_code] (NCls [(9, 10); (12, 13); (32, 32); (39, 39); (92, 92)]);
      cats (Lit (bytes "\")) [Aug [Finish a_code] m_nonnewline]]);
    Lit (bytes "'")].

(** pascal.rl:78-84 *)
Definition i_pascal_line : instance :=
  Scanner [
    (Aug [All (mkAction 76504 [Entity 0])] m_spaces, Some a_pascal_ccallback);
    (m_pascal_comment, None);
    (m_pascal_string, None);
    (Aug [All (mkAction 76505 [Entity (-1)])] m_newline, Some a_pascal_ccallback);
    (Aug [All (mkAction 76506 [Entity 3])] (NotChr r_space), Some a_pascal_ccallback)].

(** pascal.rl:88 *)
Definition a_pascal_ecallback : action := mkAction 76002 [Report "PASCAL_LANG" ["space"; "comment"; "string"; "any"]].

(** pascal.rl:93-93 *)
Definition m_pascal_line_comment_entity : rx :=
  cats (Lit (bytes "//")) [Star m_nonnewline].

(** pascal.rl:94-94 *)
Definition m_pascal_old_block_comment_entity : rx :=
  CatFin (cats (Lit (bytes "(*")) [Star r_any]) (Lit (bytes "*)")).

(** pascal.rl:95-95 *)
Definition m_pascal_turbo_block_comment_entity : rx :=
  CatFin (cats (Lit (bytes "{")) [Star r_any]) (Lit (bytes "}")).

(** pascal.rl:96-97 *)
Definition m_pascal_comment_entity : rx :=
  alts m_pascal_line_comment_entity [
    m_pascal_old_block_comment_entity;
    m_pascal_turbo_block_comment_entity].

(** pascal.rl:99-104 *)
Definition i_pascal_entity : instance :=
  Scanner [
    (Aug [All (mkAction 76507 [Entity 0])] (Plus r_space), Some a_pascal_ecallback);
    (Aug [All (mkAction 76508 [Entity 1])] m_pascal_comment_entity, Some a_pascal_ecallback);
    (NotChr r_space, None)].

Definition the_parser : parser := mkParser [i_pascal_line] "PASCAL_LANG".
Definition the_entities : parser := mkParser [i_pascal_entity] "PASCAL_LANG".
