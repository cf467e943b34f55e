(** Transcription of /repo/src/parsers/oberon.rl: the line counting machine and the
    entity machine (written by tools/ragel/gen.py). *)
From Coq Require Import ZArith String List.
From Verif Require Import Base RagelSyntax.
From Verif.Parsers Require Import Common.
Import ListNotations.
Open Scope string_scope.
Open Scope Z_scope.
Open Scope list_scope.

(** oberon.rl:33 *)
Definition a_oberon_ccallback : action := mkAction 71001 [Switch [(0, Mls); (3, Mcode); ((-2), Minl "OBERON_LANG"); ((-1), Mnl "OBERON_LANG")]].

(** oberon.rl:52 *)
Definition a_oberon_comment_nc_res : action := mkAction 71002 [VarSet 0 0].

(** oberon.rl:53 *)
Definition a_oberon_comment_nc_inc : action := mkAction 71003 [VarAdd 0 1].

(** oberon.rl:54 *)
Definition a_oberon_comment_nc_dec : action := mkAction 71004 [VarAdd 0 (-1)].

(** oberon.rl:56-67 *)
Definition m_oberon_comment : rx :=
  CatFin (cats (Aug [Enter a_oberon_comment_nc_res; Finish a_comment] (Lit (bytes "(*"))) [
    Star (alts (Aug [Leave (mkAction 71501 [Entity (-2)]); Leave a_oberon_ccallback] m_newline) [
      m_ws;
      Aug [Finish a_oberon_comment_nc_inc; Finish a_comment] (Lit (bytes "(*"));
      Aug [Finish a_oberon_comment_nc_dec; Finish a_comment] (Lit (bytes "*)"));
      Aug [Finish a_comment] (NotChr r_space)])]) (Aug [Finish a_comment] (Aug [When (IsZero 0) true] (Lit (bytes "*)")))).

(** oberon.rl:72-72 *)
Definition m_oberon_singlequoted_string : rx :=
  cats (Aug [Finish a_code] (Lit (bytes "'"))) [
    Star (NCls [(10, 10); (12, 13); (34, 34)]);
    Lit (bytes "'")].

(** oberon.rl:73-73 *)
Definition m_oberon_doublequoted_string : rx :=
  cats (Aug [Finish a_code] (Lit (bytes """"))) [
    Star (NCls [(10, 10); (12, 13); (34, 34)]);
    Lit (bytes """")].

(** oberon.rl:75-75 *)
Definition m_oberon_string : rx :=
  alts m_oberon_singlequoted_string [m_oberon_doublequoted_string].

(** oberon.rl:80-86 *)
Definition i_oberon_line : instance :=
  Scanner [
    (Aug [All (mkAction 71503 [Entity 0])] m_spaces, Some a_oberon_ccallback);
    (m_oberon_comment, None);
    (m_oberon_string, None);
    (Aug [All (mkAction 71504 [Entity (-1)])] m_newline, Some a_oberon_ccallback);
    (Aug [All (mkAction 71505 [Entity 3])] (NotChr r_space), Some a_oberon_ccallback)].

(** oberon.rl:91 *)
Definition a_oberon_ecallback : action := mkAction 71005 [Report "OBERON_LANG" ["space"; "comment"; "string"; "any"]].

(** oberon.rl:96-102 *)
Definition m_oberon_comment_entity : rx :=
  CatFin (cats (Aug [Enter a_oberon_comment_nc_res] (Lit (bytes "(*"))) [
    Star (alts (Aug [Finish a_oberon_comment_nc_inc] (Lit (bytes "(*"))) [
      Aug [Finish a_oberon_comment_nc_dec] (Lit (bytes "*)"));
      r_any])]) (Aug [When (IsZero 0) true] (Lit (bytes "*)"))).

(** oberon.rl:104-104 *)
Definition m_oberon_string_entity : rx :=
  alts m_sq_str [m_dq_str].

(** oberon.rl:106-112 *)
Definition i_oberon_entity : instance :=
  Scanner [
    (Aug [All (mkAction 71507 [Entity 0])] (Plus r_space), Some a_oberon_ecallback);
    (Aug [All (mkAction 71508 [Entity 1])] m_oberon_comment_entity, Some a_oberon_ecallback);
    (Aug [All (mkAction 71509 [Entity 2])] m_oberon_string_entity, Some a_oberon_ecallback);
    (NotChr r_space, None)].

Definition the_parser : parser := mkParser [i_oberon_line] "OBERON_LANG".
Definition the_entities : parser := mkParser [i_oberon_entity] "OBERON_LANG".
