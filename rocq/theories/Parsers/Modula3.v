(** Transcription of /repo/src/parsers/modula3.rl: the line counting machine and the
    entity machine (written by tools/ragel/gen.py). *)
From Coq Require Import ZArith String List.
From Verif Require Import Base RagelSyntax.
From Verif.Parsers Require Import Common.
Import ListNotations.
Open Scope string_scope.
Open Scope Z_scope.
Open Scope list_scope.

(** modula3.rl:33 *)
Definition a_modula3_ccallback : action := mkAction 67001 [Switch [(0, Mls); (3, Mcode); ((-2), Minl "MODULA3_LANG"); ((-1), Mnl "MODULA3_LANG")]].

(** modula3.rl:52 *)
Definition a_modula3_comment_nc_res : action := mkAction 67002 [VarSet 0 0].

(** modula3.rl:53 *)
Definition a_modula3_comment_nc_inc : action := mkAction 67003 [VarAdd 0 1].

(** modula3.rl:54 *)
Definition a_modula3_comment_nc_dec : action := mkAction 67004 [VarAdd 0 (-1)].

(** modula3.rl:56-67 *)
Definition m_modula3_comment : rx :=
  CatFin (cats (Aug [Enter a_modula3_comment_nc_res; Finish a_comment] (Lit (bytes "(*"))) [
    Star (alts (Aug [Leave (mkAction 67501 [Entity (-2)]); Leave a_modula3_ccallback] m_newline) [
      m_ws;
      Aug [Finish a_modula3_comment_nc_inc; Finish a_comment] (Lit (bytes "(*"));
      Aug [Finish a_modula3_comment_nc_dec; Finish a_comment] (Lit (bytes "*)"));
      Aug [Finish a_comment] (NotChr r_space)])]) (Aug [Finish a_comment] (Aug [When (IsZero 0) true] (Lit (bytes "*)")))).

(** modula3.rl:72-81 *)
Definition m_modula3_singlequoted_string : rx :=
  cats (Aug [Finish a_code] (Lit (bytes "'"))) [
    Star (alts (Aug [Leave (mkAction 67503 [Entity (-2)]); Leave a_modula3_ccallback] m_escaped_newline) [
      m_ws;
      Aug [Finish a_code] (NCls [(9, 9); (32, 32); (39, 39); (92, 92)]);
      cats (Lit (bytes "\")) [Aug [Finish a_code] m_nonnewline]]);
    Lit (bytes "'")].

(** modula3.rl:82-91 *)
Definition m_modula3_doublequoted_string : rx :=
  cats (Aug [Finish a_code] (Lit (bytes """"))) [
    Star (alts (Aug [Leave (mkAction 67504 [Entity (-2)]); Leave a_modula3_ccallback] m_escaped_newline) [
      m_ws;
      Aug [Finish a_code] (NCls [(9, 9); (32, 32); (34, 34); (92, 92)]);
      cats (Lit (bytes "\")) [Aug [Finish a_code] m_nonnewline]]);
    Lit (bytes """")].

(** modula3.rl:92-92 *)
Definition m_modula3_string : rx :=
  alts m_modula3_singlequoted_string [m_modula3_doublequoted_string].

(** modula3.rl:97-103 *)
Definition i_modula3_line : instance :=
  Scanner [
    (Aug [All (mkAction 67505 [Entity 0])] m_spaces, Some a_modula3_ccallback);
    (m_modula3_comment, None);
    (m_modula3_string, None);
    (Aug [All (mkAction 67506 [Entity (-1)])] m_newline, Some a_modula3_ccallback);
    (Aug [All (mkAction 67507 [Entity 3])] (NotChr r_space), Some a_modula3_ccallback)].

(** modula3.rl:108 *)
Definition a_modula3_ecallback : action := mkAction 67005 [Report "MODULA3_LANG" ["space"; "comment"; "string"; "any"]].

(** modula3.rl:113-119 *)
Definition m_modula3_comment_entity : rx :=
  CatFin (cats (Aug [Enter a_modula3_comment_nc_res] (Lit (bytes "(*"))) [
    Star (alts (Aug [Finish a_modula3_comment_nc_inc] (Lit (bytes "(*"))) [
      Aug [Finish a_modula3_comment_nc_dec] (Lit (bytes "*)"));
      r_any])]) (Aug [When (IsZero 0) true] (Lit (bytes "*)"))).

(** modula3.rl:121-122 *)
Definition m_modula3_string_entity : rx :=
  alts m_sq_str_with_escapes [m_dq_str_with_escapes].

(** modula3.rl:124-130 *)
Definition i_modula3_entity : instance :=
  Scanner [
    (Aug [All (mkAction 67509 [Entity 0])] (Plus r_space), Some a_modula3_ecallback);
    (Aug [All (mkAction 67510 [Entity 1])] m_modula3_comment_entity, Some a_modula3_ecallback);
    (Aug [All (mkAction 67511 [Entity 2])] m_modula3_string_entity, Some a_modula3_ecallback);
    (NotChr r_space, None)].

Definition the_parser : parser := mkParser [i_modula3_line] "MODULA3_LANG".
Definition the_entities : parser := mkParser [i_modula3_entity] "MODULA3_LANG".
