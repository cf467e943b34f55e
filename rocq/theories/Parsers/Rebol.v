(** Transcription of /repo/src/parsers/rebol.rl: the line counting machine and the
    entity machine (written by tools/ragel/gen.py). *)
From Coq Require Import ZArith String List.
From Verif Require Import Base RagelSyntax.
From Verif.Parsers Require Import Common.
Import ListNotations.
Open Scope string_scope.
Open Scope Z_scope.
Open Scope list_scope.

(** rebol.rl:38 *)
Definition a_rebol_ccallback : action := mkAction 87004 [Switch [(0, Mls); (3, Mcode); ((-2), Minl "REBOL_LANG"); ((-1), Mnl "REBOL_LANG")]].

(** rebol.rl:54-54 *)
Definition m_rebol_line_comment : rx :=
  cats (Aug [Finish a_comment] (Lit (bytes ";"))) [Star m_nonnewline].

(** rebol.rl:55-55 *)
Definition m_rebol_comment : rx :=
  m_rebol_line_comment.

(** rebol.rl:57-57 *)
Definition m_rebol_dq_str : rx :=
  cats (Aug [Finish a_code] (Lit (bytes """"))) [
    Star (alts (NCls [(10, 10); (12, 13); (34, 34)]) [Lit (bytes "^""")]);
    Cls [(10, 10); (12, 13); (34, 34)]].

(** rebol.rl:29 *)
Definition a_rebol_inc_string : action := mkAction 87001 [VarAdd 3 1].

(** rebol.rl:30 *)
Definition a_rebol_dec_string : action := mkAction 87002 [VarAdd 3 (-1)].

(** rebol.rl:33-34 *)
Definition m_rebol_cb_str_nest : rx :=
  alts (Aug [Leave a_rebol_inc_string] (Lit (bytes "{"))) [
    Aug [When (IsPos 3) true; Leave a_rebol_dec_string] (Lit (bytes "}"))].

(** rebol.rl:58-60 *)
Definition m_rebol_cb_str_inner : rx :=
  alts (NCls [(123, 123); (125, 125)]) [
    Lit (bytes "^{");
    Lit (bytes "^}");
    Aug [Leave (mkAction 87501 [Entity (-2)]); Leave a_rebol_ccallback] m_newline;
    m_rebol_cb_str_nest].

(** rebol.rl:61-61 *)
Definition m_rebol_cb_str : rx :=
  cats (Aug [Finish a_code] (Lit (bytes "{"))) [
    Aug [Finish a_code] (Star m_rebol_cb_str_inner);
    Aug [Finish a_code] (Lit (bytes "}"))].

(** rebol.rl:62-62 *)
Definition m_rebol_string : rx :=
  alts m_rebol_dq_str [m_rebol_cb_str].

(** rebol.rl:64-70 *)
Definition i_rebol_line : instance :=
  Scanner [
    (Aug [All (mkAction 87502 [Entity 0])] m_spaces, Some a_rebol_ccallback);
    (m_rebol_comment, None);
    (m_rebol_string, None);
    (Aug [All (mkAction 87503 [Entity (-1)])] m_newline, Some a_rebol_ccallback);
    (Aug [All (mkAction 87504 [Entity 3])] (NotChr r_space), Some a_rebol_ccallback)].

(** rebol.rl:74 *)
Definition a_rebol_ecallback : action := mkAction 87005 [Report "REBOL_LANG" ["space"; "comment"; "string"; "any"]].

(** rebol.rl:78-78 *)
Definition m_rebol_line_comment_entity : rx :=
  cats (Lit (bytes ";")) [Star m_nonnewline].

(** rebol.rl:79-79 *)
Definition m_rebol_comment_entity : rx :=
  m_rebol_line_comment_entity.

(** rebol.rl:81-81 *)
Definition m_rebol_dq_str_entity : rx :=
  cats (Lit (bytes """")) [
    Star (alts (NCls [(10, 10); (12, 13); (34, 34)]) [Lit (bytes "^""")]);
    Cls [(10, 10); (12, 13); (34, 34)]].

(** rebol.rl:82-82 *)
Definition m_rebol_cb_str_entity : rx :=
  cats (Lit (bytes "{")) [
    Star (alts (NCls [(123, 123); (125, 125)]) [Lit (bytes "^{"); Lit (bytes "^}"); m_rebol_cb_str_nest]);
    Lit (bytes "}")].

(** rebol.rl:83-83 *)
Definition m_rebol_string_entiy : rx :=
  alts m_rebol_dq_str_entity [m_rebol_cb_str_entity].

(** rebol.rl:85-90 *)
Definition i_rebol_entity : instance :=
  Scanner [
    (Aug [All (mkAction 87505 [Entity 0])] (Plus r_space), Some a_rebol_ecallback);
    (Aug [All (mkAction 87506 [Entity 1])] m_rebol_comment_entity, Some a_rebol_ecallback);
    (Aug [All (mkAction 87507 [Entity 2])] m_rebol_string_entiy, Some a_rebol_ecallback);
    (Aug [All (mkAction 87508 [Entity 3])] (NotChr r_space), Some a_rebol_ecallback)].

Definition the_parser : parser := mkParser [i_rebol_line] "REBOL_LANG".
Definition the_entities : parser := mkParser [i_rebol_entity] "REBOL_LANG".
