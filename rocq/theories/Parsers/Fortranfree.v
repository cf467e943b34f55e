(** Transcription of /repo/src/parsers/fortranfree.rl: the line counting machine and the
    entity machine (written by tools/ragel/gen.py). *)
From Coq Require Import ZArith String List.
From Verif Require Import Base RagelSyntax.
From Verif.Parsers Require Import Common.
Import ListNotations.
Open Scope string_scope.
Open Scope Z_scope.
Open Scope list_scope.

(** fortranfree.rl:31 *)
Definition a_ffree_ccallback : action := mkAction 37001 [Switch [(0, Mls); (3, Mcode); ((-2), Minl "FORTRANFREE_LANG"); ((-1), Mnl "FORTRANFREE_LANG")]].

(** fortranfree.rl:47-47 *)
Definition m_ffree_comment : rx :=
  cats (Aug [Finish a_comment] (Lit (bytes "!"))) [Star m_nonnewline].

(** fortranfree.rl:49-56 *)
Definition m_ffree_sq_str : rx :=
  cats (Aug [Finish a_code] (Lit (bytes "'"))) [
    Star (alts (Aug [Leave (mkAction 37501 [Entity (-2)]); Leave a_ffree_ccallback] m_newline) [
      m_ws;
      Aug [Finish a_code] (NCls [(9, 10); (12, 13); (32, 32); (39, 39)])]);
    Lit (bytes "'")].

(** fortranfree.rl:57-64 *)
Definition m_ffree_dq_str : rx :=
  cats (Aug [Finish a_code] (Lit (bytes """"))) [
    Star (alts (Aug [Leave (mkAction 37502 [Entity (-2)]); Leave a_ffree_ccallback] m_newline) [
      m_ws;
      Aug [Finish a_code] (NCls [(9, 10); (12, 13); (32, 32); (34, 34)])]);
    Lit (bytes """")].

(** fortranfree.rl:65-65 *)
Definition m_ffree_string : rx :=
  alts m_ffree_sq_str [m_ffree_dq_str].

(** fortranfree.rl:67-73 *)
Definition i_ffree_line : instance :=
  Scanner [
    (Aug [All (mkAction 37503 [Entity 0])] m_spaces, Some a_ffree_ccallback);
    (m_ffree_comment, None);
    (m_ffree_string, None);
    (Aug [All (mkAction 37504 [Entity (-1)])] m_newline, Some a_ffree_ccallback);
    (Aug [All (mkAction 37505 [Entity 3])] (NotChr r_space), Some a_ffree_ccallback)].

(** fortranfree.rl:77 *)
Definition a_ffree_ecallback : action := mkAction 37002 [Report "FORTRANFREE_LANG" ["space"; "comment"; "string"; "any"]].

(** fortranfree.rl:82-82 *)
Definition m_ffree_comment_entity : rx :=
  cats (Lit (bytes "!")) [Star m_nonnewline].

(** fortranfree.rl:84-89 *)
Definition i_ffree_entity : instance :=
  Scanner [
    (Aug [All (mkAction 37506 [Entity 0])] (Plus r_space), Some a_ffree_ecallback);
    (Aug [All (mkAction 37507 [Entity 1])] m_ffree_comment_entity, Some a_ffree_ecallback);
    (NotChr r_space, None)].

Definition the_parser : parser := mkParser [i_ffree_line] "FORTRANFREE_LANG".
Definition the_entities : parser := mkParser [i_ffree_entity] "FORTRANFREE_LANG".
