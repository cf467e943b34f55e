(** Transcription of /repo/src/parsers/classic_basic.rl: the line counting machine and the
    entity machine (written by tools/ragel/gen.py). *)
From Coq Require Import ZArith String List.
From Verif Require Import Base RagelSyntax.
From Verif.Parsers Require Import Common.
Import ListNotations.
Open Scope string_scope.
Open Scope Z_scope.
Open Scope list_scope.

(** classic_basic.rl:29 *)
Definition a_cb_ccallback : action := mkAction 16001 [Switch [(0, Mls); (3, Mcode); ((-2), Minl "CB_LANG"); ((-1), Mnl "CB_LANG")]].

(** classic_basic.rl:45-45 *)
Definition m_cb_comment : rx :=
  cats m_dec_num [
    m_spaces;
    Aug [Finish a_comment] (alts (Lit (bytes "'")) [LitI (bytes "rem")]);
    Star m_nonnewline].

(** classic_basic.rl:47-47 *)
Definition m_cb_string : rx :=
  cats (Aug [Finish a_code] (Lit (bytes """"))) [
    Star (alts (NCls [(10, 10); (12, 13); (34, 34); (92, 92)]) [cats (Lit (bytes "\")) [m_nonnewline]]);
    Lit (bytes """")].

(** classic_basic.rl:49-55 *)
Definition i_cb_line : instance :=
  Scanner [
    (Aug [All (mkAction 16501 [Entity 0])] m_spaces, Some a_cb_ccallback);
    (m_cb_comment, None);
    (m_cb_string, None);
    (Aug [All (mkAction 16502 [Entity (-1)])] m_newline, Some a_cb_ccallback);
    (Aug [All (mkAction 16503 [Entity 3])] (NotChr r_space), Some a_cb_ccallback)].

(** classic_basic.rl:59 *)
Definition a_cb_ecallback : action := mkAction 16002 [Report "CB_LANG" ["space"; "comment"; "string"; "any"]].

(** classic_basic.rl:63-63 *)
Definition m_cb_comment_entity : rx :=
  cats (alts (Lit (bytes "'")) [cats (LitI (bytes "rem")) [Plus m_ws]]) [Star m_nonnewline].

(** classic_basic.rl:65-70 *)
Definition i_cb_entity : instance :=
  Scanner [
    (Aug [All (mkAction 16504 [Entity 0])] (Plus r_space), Some a_cb_ecallback);
    (Aug [All (mkAction 16505 [Entity 1])] m_cb_comment_entity, Some a_cb_ecallback);
    (NotChr r_space, None)].

Definition the_parser : parser := mkParser [i_cb_line] "CB_LANG".
Definition the_entities : parser := mkParser [i_cb_entity] "CB_LANG".
