(** Transcription of /repo/src/parsers/autoconf.rl: the line counting machine and the
    entity machine (written by tools/ragel/gen.py). *)
From Coq Require Import ZArith String List.
From Verif Require Import Base RagelSyntax.
From Verif.Parsers Require Import Common.
Import ListNotations.
Open Scope string_scope.
Open Scope Z_scope.
Open Scope list_scope.

(** autoconf.rl:31 *)
Definition a_ac_ccallback : action := mkAction 6001 [Switch [(0, Mls); (3, Mcode); ((-2), Minl "AC_LANG"); ((-1), Mnl "AC_LANG")]].

(** autoconf.rl:51-51 *)
Definition m_ac_comment : rx :=
  cats (Aug [Finish a_comment] (Lit (bytes "dnl"))) [Opt (cats (Plus m_ws) [Plus m_nonnewline])].

(** autoconf.rl:47 *)
Definition a_ac_str_nc_res : action := mkAction 6002 [VarSet 0 0].

(** autoconf.rl:48 *)
Definition a_ac_str_nc_inc : action := mkAction 6003 [VarAdd 0 1].

(** autoconf.rl:49 *)
Definition a_ac_str_nc_dec : action := mkAction 6004 [VarAdd 0 (-1)].

(** autoconf.rl:53-64 *)
Definition m_ac_string : rx :=
  CatFin (cats (Aug [Enter a_ac_str_nc_res; Finish a_code] (Lit (bytes "["))) [
    Star (alts (Aug [Leave (mkAction 6501 [Entity (-2)]); Leave a_ac_ccallback] m_newline) [
      m_ws;
      Aug [Finish a_ac_str_nc_inc; Finish a_code] (Lit (bytes "["));
      Aug [Finish a_ac_str_nc_dec; Finish a_code] (Lit (bytes "]"));
      Aug [Finish a_code] (Diff (Diff m_nonnewline m_ws) (Cls [(91, 91); (93, 93)]))])]) (Aug [When (IsZero 0) true] (Lit (bytes "]"))).

(** autoconf.rl:66-72 *)
Definition i_ac_line : instance :=
  Scanner [
    (Aug [All (mkAction 6503 [Entity 0])] m_spaces, Some a_ac_ccallback);
    (m_ac_comment, None);
    (m_ac_string, None);
    (Aug [All (mkAction 6504 [Entity (-1)])] m_newline, Some a_ac_ccallback);
    (Aug [All (mkAction 6505 [Entity 3])] (NotChr r_space), Some a_ac_ccallback)].

(** autoconf.rl:76 *)
Definition a_ac_ecallback : action := mkAction 6005 [Report "AC_LANG" ["space"; "comment"; "string"; "any"]].

(** autoconf.rl:80-80 *)
Definition m_ac_comment_entity : rx :=
  cats (Lit (bytes "dnl")) [Plus m_ws; Star m_nonnewline].

(** autoconf.rl:82-87 *)
Definition i_ac_entity : instance :=
  Scanner [
    (Aug [All (mkAction 6506 [Entity 0])] (Plus r_space), Some a_ac_ecallback);
    (Aug [All (mkAction 6507 [Entity 1])] m_ac_comment_entity, Some a_ac_ecallback);
    (NotChr r_space, None)].

Definition the_parser : parser := mkParser [i_ac_line] "AC_LANG".
Definition the_entities : parser := mkParser [i_ac_entity] "AC_LANG".
