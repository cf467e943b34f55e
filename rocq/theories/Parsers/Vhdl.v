(** Transcription of /repo/src/parsers/vhdl.rl: the line counting machine and the
    entity machine (written by tools/ragel/gen.py). *)
From Coq Require Import ZArith String List.
From Verif Require Import Base RagelSyntax.
From Verif.Parsers Require Import Common.
Import ListNotations.
Open Scope string_scope.
Open Scope Z_scope.
Open Scope list_scope.

(** vhdl.rl:31 *)
Definition a_vhdl_ccallback : action := mkAction 106001 [Switch [(0, Mls); (3, Mcode); ((-2), Minl "VHDL_LANG"); ((-1), Mnl "VHDL_LANG")]].

(** vhdl.rl:47-47 *)
Definition m_vhdl_comment : rx :=
  cats (Aug [Finish a_comment] (Lit (bytes "--"))) [Star m_nonnewline].

(** vhdl.rl:49-49 *)
Definition m_vhdl_char : rx :=
  cats (Aug [Finish a_code] (Lit (bytes "'"))) [
    NCls [(10, 10); (12, 13); (39, 39)];
    Lit (bytes "'")].

(** vhdl.rl:50-50 *)
Definition m_vhdl_dq_str : rx :=
  cats (Aug [Finish a_code] (Lit (bytes """"))) [
    Star (NCls [(10, 10); (12, 13); (34, 34)]);
    Lit (bytes """")].

(** vhdl.rl:51-51 *)
Definition m_vhdl_string : rx :=
  alts m_vhdl_char [m_vhdl_dq_str].

(** vhdl.rl:53-59 *)
Definition i_vhdl_line : instance :=
  Scanner [
    (Aug [All (mkAction 106501 [Entity 0])] m_spaces, Some a_vhdl_ccallback);
    (m_vhdl_comment, None);
    (m_vhdl_string, None);
    (Aug [All (mkAction 106502 [Entity (-1)])] m_newline, Some a_vhdl_ccallback);
    (Aug [All (mkAction 106503 [Entity 3])] (NotChr r_space), Some a_vhdl_ccallback)].

(** vhdl.rl:63 *)
Definition a_vhdl_ecallback : action := mkAction 106002 [Report "VHDL_LANG" ["space"; "comment"; "string"; "any"]].

(** vhdl.rl:67-67 *)
Definition m_vhdl_comment_entity : rx :=
  cats (Lit (bytes "--")) [Star m_nonnewline].

(** vhdl.rl:69-74 *)
Definition i_vhdl_entity : instance :=
  Scanner [
    (Aug [All (mkAction 106504 [Entity 0])] (Plus r_space), Some a_vhdl_ecallback);
    (Aug [All (mkAction 106505 [Entity 1])] m_vhdl_comment_entity, Some a_vhdl_ecallback);
    (NotChr r_space, None)].

Definition the_parser : parser := mkParser [i_vhdl_line] "VHDL_LANG".
Definition the_entities : parser := mkParser [i_vhdl_entity] "VHDL_LANG".
