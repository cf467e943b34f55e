(** Transcription of /repo/src/parsers/visual_basic.rl: the line counting machine and the
    entity machine (written by tools/ragel/gen.py). *)
From Coq Require Import ZArith String List.
From Verif Require Import Base RagelSyntax.
From Verif.Parsers Require Import Common.
Import ListNotations.
Open Scope string_scope.
Open Scope Z_scope.
Open Scope list_scope.

(** visual_basic.rl:31 *)
Definition a_vb_ccallback : action := mkAction 108001 [Switch [(0, Mls); (3, Mcode); ((-2), Minl "VB_LANG"); ((-1), Mnl "VB_LANG")]].

(** visual_basic.rl:47-47 *)
Definition m_vb_comment : rx :=
  cats (Aug [Finish a_comment] (alts (Lit (bytes "'")) [LitI (bytes "rem")])) [Star m_nonnewline].

(** visual_basic.rl:49-49 *)
Definition m_vb_string : rx :=
  cats (Aug [Finish a_code] (Lit (bytes """"))) [
    Star (alts (NCls [(10, 10); (12, 13); (34, 34); (92, 92)]) [cats (Lit (bytes "\")) [m_nonnewline]]);
    Lit (bytes """")].

(** visual_basic.rl:51-57 *)
Definition i_vb_line : instance :=
  Scanner [
    (Aug [All (mkAction 108501 [Entity 0])] m_spaces, Some a_vb_ccallback);
    (m_vb_comment, None);
    (m_vb_string, None);
    (Aug [All (mkAction 108502 [Entity (-1)])] m_newline, Some a_vb_ccallback);
    (Aug [All (mkAction 108503 [Entity 3])] (NotChr r_space), Some a_vb_ccallback)].

(** visual_basic.rl:61 *)
Definition a_vb_ecallback : action := mkAction 108002 [Report "VB_LANG" ["space"; "comment"; "string"; "any"]].

(** visual_basic.rl:65-65 *)
Definition m_vb_comment_entity : rx :=
  cats (alts (Lit (bytes "'")) [LitI (bytes "rem")]) [Star m_nonnewline].

(** visual_basic.rl:67-72 *)
Definition i_vb_entity : instance :=
  Scanner [
    (Aug [All (mkAction 108504 [Entity 0])] (Plus r_space), Some a_vb_ecallback);
    (Aug [All (mkAction 108505 [Entity 1])] m_vb_comment_entity, Some a_vb_ecallback);
    (NotChr r_space, None)].

Definition the_parser : parser := mkParser [i_vb_line] "VB_LANG".
Definition the_entities : parser := mkParser [i_vb_entity] "VB_LANG".
