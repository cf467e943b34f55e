(** Transcription of /repo/src/parsers/modula2.rl: the line counting machine and the
    entity machine (written by tools/ragel/gen.py). *)
From Coq Require Import ZArith String List.
From Verif Require Import Base RagelSyntax.
From Verif.Parsers Require Import Common.
Import ListNotations.
Open Scope string_scope.
Open Scope Z_scope.
Open Scope list_scope.

(** modula2.rl:33 *)
Definition a_modula2_ccallback : action := mkAction 66001 [Switch [(0, Mls); (3, Mcode); ((-2), Minl "MODULA2_LANG"); ((-1), Mnl "MODULA2_LANG")]].

(** modula2.rl:52 *)
Definition a_modula2_comment_nc_res : action := mkAction 66002 [VarSet 0 0].

(** modula2.rl:53 *)
Definition a_modula2_comment_nc_inc : action := mkAction 66003 [VarAdd 0 1].

(** modula2.rl:54 *)
Definition a_modula2_comment_nc_dec : action := mkAction 66004 [VarAdd 0 (-1)].

(** modula2.rl:56-67 *)
Definition m_modula2_comment : rx :=
  CatFin (cats (Aug [Enter a_modula2_comment_nc_res; Finish a_comment] (Lit (bytes "(*"))) [
    Star (alts (Aug [Leave (mkAction 66501 [Entity (-2)]); Leave a_modula2_ccallback] m_newline) [
      m_ws;
      Aug [Finish a_modula2_comment_nc_inc; Finish a_comment] (Lit (bytes "(*"));
      Aug [Finish a_modula2_comment_nc_dec; Finish a_comment] (Lit (bytes "*)"));
      Aug [Finish a_comment] (NotChr r_space)])]) (Aug [Finish a_comment] (Aug [When (IsZero 0) true] (Lit (bytes "*)")))).

(** modula2.rl:72-72 *)
Definition m_modula2_singlequoted_string : rx :=
  cats (Aug [Finish a_code] (Lit (bytes "'"))) [
    Star (NCls [(10, 10); (12, 13); (34, 34)]);
    Lit (bytes "'")].

(** modula2.rl:73-73 *)
Definition m_modula2_doublequoted_string : rx :=
  cats (Aug [Finish a_code] (Lit (bytes """"))) [
    Star (NCls [(10, 10); (12, 13); (34, 34)]);
    Lit (bytes """")].

(** modula2.rl:75-75 *)
Definition m_modula2_string : rx :=
  alts m_modula2_singlequoted_string [m_modula2_doublequoted_string].

(** modula2.rl:80-86 *)
Definition i_modula2_line : instance :=
  Scanner [
    (Aug [All (mkAction 66503 [Entity 0])] m_spaces, Some a_modula2_ccallback);
    (m_modula2_comment, None);
    (m_modula2_string, None);
    (Aug [All (mkAction 66504 [Entity (-1)])] m_newline, Some a_modula2_ccallback);
    (Aug [All (mkAction 66505 [Entity 3])] (NotChr r_space), Some a_modula2_ccallback)].

(** modula2.rl:91 *)
Definition a_modula2_ecallback : action := mkAction 66005 [Report "MODULA2_LANG" ["space"; "comment"; "string"; "any"]].

(** modula2.rl:96-102 *)
Definition m_modula2_comment_entity : rx :=
  CatFin (cats (Aug [Enter a_modula2_comment_nc_res] (Lit (bytes "(*"))) [
    Star (alts (Aug [Finish a_modula2_comment_nc_inc] (Lit (bytes "(*"))) [
      Aug [Finish a_modula2_comment_nc_dec] (Lit (bytes "*)"));
      r_any])]) (Aug [When (IsZero 0) true] (Lit (bytes "*)"))).

(** modula2.rl:104-104 *)
Definition m_modula2_string_entity : rx :=
  alts m_sq_str [m_dq_str].

(** modula2.rl:106-112 *)
Definition i_modula2_entity : instance :=
  Scanner [
    (Aug [All (mkAction 66507 [Entity 0])] (Plus r_space), Some a_modula2_ecallback);
    (Aug [All (mkAction 66508 [Entity 1])] m_modula2_comment_entity, Some a_modula2_ecallback);
    (Aug [All (mkAction 66509 [Entity 2])] m_modula2_string_entity, Some a_modula2_ecallback);
    (NotChr r_space, None)].

Definition the_parser : parser := mkParser [i_modula2_line] "MODULA2_LANG".
Definition the_entities : parser := mkParser [i_modula2_entity] "MODULA2_LANG".
