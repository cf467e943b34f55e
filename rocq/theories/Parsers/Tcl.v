(** Transcription of /repo/src/parsers/tcl.rl: the line counting machine and the
    entity machine (written by tools/ragel/gen.py). *)
From Coq Require Import ZArith String List.
From Verif Require Import Base RagelSyntax.
From Verif.Parsers Require Import Common.
Import ListNotations.
Open Scope string_scope.
Open Scope Z_scope.
Open Scope list_scope.

(** tcl.rl:31 *)
Definition a_tcl_ccallback : action := mkAction 100001 [Switch [(0, Mls); (3, Mcode); ((-2), Minl "TCL_LANG"); ((-1), Mnl "TCL_LANG")]].

(** tcl.rl:47-54 *)
Definition m_tcl_comment : rx :=
  cats (Aug [Finish a_comment] (Lit (bytes "#"))) [
    Star (alts (Aug [Leave (mkAction 100501 [Entity (-2)]); Leave a_tcl_ccallback] m_escaped_newline) [
      m_ws;
      Aug [Finish a_comment] (Diff m_nonnewline m_ws)])].

(** tcl.rl:56-65 *)
Definition m_tcl_string : rx :=
  cats (Aug [Finish a_code] (Lit (bytes """"))) [
    Star (alts (Aug [Leave (mkAction 100502 [Entity (-2)]); Leave a_tcl_ccallback] m_escaped_newline) [
      m_ws;
      Aug [Finish a_code] (NCls [(9, 10); (12, 13); (32, 32); (34, 34); (92, 92)]);
      cats (Lit (bytes "\")) [Aug [Finish a_code] m_nonnewline]]);
    Lit (bytes """")].

(** tcl.rl:67-73 *)
Definition i_tcl_line : instance :=
  Scanner [
    (Aug [All (mkAction 100503 [Entity 0])] m_spaces, Some a_tcl_ccallback);
    (m_tcl_comment, None);
    (m_tcl_string, None);
    (Aug [All (mkAction 100504 [Entity (-1)])] m_newline, Some a_tcl_ccallback);
    (Aug [All (mkAction 100505 [Entity 3])] (NotChr r_space), Some a_tcl_ccallback)].

(** tcl.rl:77 *)
Definition a_tcl_ecallback : action := mkAction 100002 [Report "TCL_LANG" ["space"; "comment"; "string"; "any"]].

(** tcl.rl:81-81 *)
Definition m_tcl_comment_entity : rx :=
  cats (Lit (bytes "#")) [Star (alts m_escaped_newline [m_nonnewline])].

(** tcl.rl:83-88 *)
Definition i_tcl_entity : instance :=
  Scanner [
    (Aug [All (mkAction 100506 [Entity 0])] (Plus r_space), Some a_tcl_ecallback);
    (Aug [All (mkAction 100507 [Entity 1])] m_tcl_comment_entity, Some a_tcl_ecallback);
    (NotChr r_space, None)].

Definition the_parser : parser := mkParser [i_tcl_line] "TCL_LANG".
Definition the_entities : parser := mkParser [i_tcl_entity] "TCL_LANG".
