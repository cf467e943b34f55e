(** Transcription of /repo/src/parsers/tex.rl: the line counting machine and the
    entity machine (written by tools/ragel/gen.py). *)
From Coq Require Import ZArith String List.
From Verif Require Import Base RagelSyntax.
From Verif.Parsers Require Import Common.
Import ListNotations.
Open Scope string_scope.
Open Scope Z_scope.
Open Scope list_scope.

(** tex.rl:31 *)
Definition a_tex_ccallback : action := mkAction 101001 [Switch [(0, Mls); (3, Mcode); ((-2), Minl "TEX_LANG"); ((-1), Mnl "TEX_LANG")]].

(** tex.rl:47-47 *)
Definition m_tex_comment : rx :=
  cats (Aug [Finish a_comment] (Lit (bytes "%"))) [Star m_nonnewline].

(** tex.rl:49-54 *)
Definition i_tex_line : instance :=
  Scanner [
    (Aug [All (mkAction 101501 [Entity 0])] m_spaces, Some a_tex_ccallback);
    (m_tex_comment, None);
    (Aug [All (mkAction 101502 [Entity (-1)])] m_newline, Some a_tex_ccallback);
    (Aug [All (mkAction 101503 [Entity 3])] (NotChr r_space), Some a_tex_ccallback)].

(** tex.rl:58 *)
Definition a_tex_ecallback : action := mkAction 101002 [Report "TEX_LANG" ["space"; "comment"; "string"; "any"]].

(** tex.rl:62-62 *)
Definition m_tex_comment_entity : rx :=
  cats (Lit (bytes "%")) [Star m_nonnewline].

(** tex.rl:64-69 *)
Definition i_tex_entity : instance :=
  Scanner [
    (Aug [All (mkAction 101504 [Entity 0])] (Plus r_space), Some a_tex_ecallback);
    (Aug [All (mkAction 101505 [Entity 1])] m_tex_comment_entity, Some a_tex_ecallback);
    (NotChr r_space, None)].

Definition the_parser : parser := mkParser [i_tex_line] "TEX_LANG".
Definition the_entities : parser := mkParser [i_tex_entity] "TEX_LANG".
