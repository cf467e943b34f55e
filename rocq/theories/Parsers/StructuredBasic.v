(** Transcription of /repo/src/parsers/structured_basic.rl: the line counting machine and the
    entity machine (written by tools/ragel/gen.py). *)
From Coq Require Import ZArith String List.
From Verif Require Import Base RagelSyntax.
From Verif.Parsers Require Import Common.
Import ListNotations.
Open Scope string_scope.
Open Scope Z_scope.
Open Scope list_scope.

(** structured_basic.rl:29 *)
Definition a_sb_ccallback : action := mkAction 98001 [Switch [(0, Mls); (3, Mcode); ((-2), Minl "SB_LANG"); ((-1), Mnl "SB_LANG")]].

(** structured_basic.rl:45-45 *)
Definition m_sb_comment : rx :=
  cats (Aug [Finish a_comment] (alts (Lit (bytes "'")) [LitI (bytes "rem")])) [Star m_nonnewline].

(** structured_basic.rl:47-47 *)
Definition m_sb_string : rx :=
  cats (Aug [Finish a_code] (Lit (bytes """"))) [
    Star (alts (NCls [(10, 10); (12, 13); (34, 34); (92, 92)]) [cats (Lit (bytes "\")) [m_nonnewline]]);
    Lit (bytes """")].

(** structured_basic.rl:49-55 *)
Definition i_sb_line : instance :=
  Scanner [
    (Aug [All (mkAction 98501 [Entity 0])] m_spaces, Some a_sb_ccallback);
    (m_sb_comment, None);
    (m_sb_string, None);
    (Aug [All (mkAction 98502 [Entity (-1)])] m_newline, Some a_sb_ccallback);
    (Aug [All (mkAction 98503 [Entity 3])] (NotChr r_space), Some a_sb_ccallback)].

(** structured_basic.rl:59 *)
Definition a_sb_ecallback : action := mkAction 98002 [Report "SB_LANG" ["space"; "comment"; "string"; "any"]].

(** structured_basic.rl:63-63 *)
Definition m_sb_comment_entity : rx :=
  cats (alts (Lit (bytes "'")) [LitI (bytes "rem")]) [Star m_nonnewline].

(** structured_basic.rl:65-70 *)
Definition i_sb_entity : instance :=
  Scanner [
    (Aug [All (mkAction 98504 [Entity 0])] (Plus r_space), Some a_sb_ecallback);
    (Aug [All (mkAction 98505 [Entity 1])] m_sb_comment_entity, Some a_sb_ecallback);
    (NotChr r_space, None)].

Definition the_parser : parser := mkParser [i_sb_line] "SB_LANG".
Definition the_entities : parser := mkParser [i_sb_entity] "SB_LANG".
