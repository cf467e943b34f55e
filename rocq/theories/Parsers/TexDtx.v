(** Transcription of /repo/src/parsers/tex_dtx.rl: the line counting machine and the
    entity machine (written by tools/ragel/gen.py). *)
From Coq Require Import ZArith String List.
From Verif Require Import Base RagelSyntax.
From Verif.Parsers Require Import Common.
Import ListNotations.
Open Scope string_scope.
Open Scope Z_scope.
Open Scope list_scope.

(** tex_dtx.rl:32 *)
Definition a_tex_dtx_ccallback : action := mkAction 102001 [Switch [(0, Mls); (3, Mcode); ((-2), Minl "TEX_DTX_LANG"); ((-1), Mnl "TEX_DTX_LANG")]].

(** tex_dtx.rl:48-48 *)
Definition m_tex_dtx_comment : rx :=
  cats (Aug [Finish a_comment] (Lit (bytes "%%"))) [Star m_nonnewline].

(** tex_dtx.rl:50-55 *)
Definition i_tex_dtx_line : instance :=
  Scanner [
    (Aug [All (mkAction 102501 [Entity 0])] m_spaces, Some a_tex_dtx_ccallback);
    (m_tex_dtx_comment, None);
    (Aug [All (mkAction 102502 [Entity (-1)])] m_newline, Some a_tex_dtx_ccallback);
    (Aug [All (mkAction 102503 [Entity 3])] (NotChr r_space), Some a_tex_dtx_ccallback)].

(** tex_dtx.rl:59 *)
Definition a_tex_dtx_ecallback : action := mkAction 102002 [Report "TEX_DTX_LANG" ["space"; "comment"; "string"; "any"]].

(** tex_dtx.rl:63-63 *)
Definition m_tex_dtx_comment_entity : rx :=
  cats (Lit (bytes "%%")) [Star m_nonnewline].

(** tex_dtx.rl:65-70 *)
Definition i_tex_dtx_entity : instance :=
  Scanner [
    (Aug [All (mkAction 102504 [Entity 0])] (Plus r_space), Some a_tex_dtx_ecallback);
    (Aug [All (mkAction 102505 [Entity 1])] m_tex_dtx_comment_entity, Some a_tex_dtx_ecallback);
    (NotChr r_space, None)].

Definition the_parser : parser := mkParser [i_tex_dtx_line] "TEX_DTX_LANG".
Definition the_entities : parser := mkParser [i_tex_dtx_entity] "TEX_DTX_LANG".
