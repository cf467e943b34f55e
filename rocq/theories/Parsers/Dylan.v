(** Transcription of /repo/src/parsers/dylan.rl: the line counting machine and the
    entity machine (written by tools/ragel/gen.py). *)
From Coq Require Import ZArith String List.
From Verif Require Import Base RagelSyntax.
From Verif.Parsers Require Import Common.
Import ListNotations.
Open Scope string_scope.
Open Scope Z_scope.
Open Scope list_scope.

(** dylan.rl:31 *)
Definition a_dylan_ccallback : action := mkAction 28001 [Switch [(0, Mls); (3, Mcode); ((-2), Minl "DYLAN_LANG"); ((-1), Mnl "DYLAN_LANG")]].

(** dylan.rl:47-47 *)
Definition m_dylan_line_comment : rx :=
  cats (Aug [Finish a_comment] (Lit (bytes "//"))) [Star m_nonnewline].

(** dylan.rl:48-55 *)
Definition m_dylan_block_comment : rx :=
  CatFin (cats (Aug [Finish a_comment] (Lit (bytes "/*"))) [
    Star (alts (Aug [Leave (mkAction 28501 [Entity (-2)]); Leave a_dylan_ccallback] m_newline) [
      m_ws;
      Aug [Finish a_comment] (Diff m_nonnewline m_ws)])]) (Lit (bytes "*/")).

(** dylan.rl:56-56 *)
Definition m_dylan_comment : rx :=
  alts m_dylan_line_comment [m_dylan_block_comment].

(** dylan.rl:58-58 *)
Definition m_dylan_char : rx :=
  cats (Aug [Finish a_code] (Lit (bytes "'"))) [
    alts (NCls [(10, 10); (12, 13); (39, 39); (92, 92)]) [cats (Lit (bytes "\")) [m_nonnewline]];
    Lit (bytes "'")].

(** dylan.rl:59-59 *)
Definition m_dylan_dq_str : rx :=
  cats (Aug [Finish a_code] (Lit (bytes """"))) [
    Star (alts (NCls [(10, 10); (12, 13); (34, 34); (92, 92)]) [cats (Lit (bytes "\")) [m_nonnewline]]);
    Lit (bytes """")].

(** dylan.rl:60-60 *)
Definition m_dylan_string : rx :=
  alts m_dylan_char [m_dylan_dq_str].

(** dylan.rl:62-68 *)
Definition i_dylan_line : instance :=
  Scanner [
    (Aug [All (mkAction 28502 [Entity 0])] m_spaces, Some a_dylan_ccallback);
    (m_dylan_comment, None);
    (m_dylan_string, None);
    (Aug [All (mkAction 28503 [Entity (-1)])] m_newline, Some a_dylan_ccallback);
    (Aug [All (mkAction 28504 [Entity 3])] (NotChr r_space), Some a_dylan_ccallback)].

(** dylan.rl:72 *)
Definition a_dylan_ecallback : action := mkAction 28002 [Report "DYLAN_LANG" ["space"; "comment"; "string"; "any"]].

(** dylan.rl:76-76 *)
Definition m_dylan_line_comment_entity : rx :=
  cats (Lit (bytes "//")) [Star m_nonnewline].

(** dylan.rl:77-77 *)
Definition m_dylan_block_comment_entity : rx :=
  CatFin (cats (Lit (bytes "/*")) [Star r_any]) (Lit (bytes "*/")).

(** dylan.rl:78-78 *)
Definition m_dylan_comment_entity : rx :=
  alts m_dylan_line_comment_entity [m_dylan_block_comment_entity].

(** dylan.rl:80-85 *)
Definition i_dylan_entity : instance :=
  Scanner [
    (Aug [All (mkAction 28505 [Entity 0])] (Plus r_space), Some a_dylan_ecallback);
    (Aug [All (mkAction 28506 [Entity 1])] m_dylan_comment_entity, Some a_dylan_ecallback);
    (NotChr r_space, None)].

Definition the_parser : parser := mkParser [i_dylan_line] "DYLAN_LANG".
Definition the_entities : parser := mkParser [i_dylan_entity] "DYLAN_LANG".
