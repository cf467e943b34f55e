(** Transcription of /repo/src/parsers/augeas.rl: the line counting machine and the
    entity machine (written by tools/ragel/gen.py). *)
From Coq Require Import ZArith String List.
From Verif Require Import Base RagelSyntax.
From Verif.Parsers Require Import Common.
Import ListNotations.
Open Scope string_scope.
Open Scope Z_scope.
Open Scope list_scope.

(** augeas.rl:30 *)
Definition a_augeas_ccallback : action := mkAction 5001 [Switch [(0, Mls); (3, Mcode); ((-2), Minl "AUGEAS_LANG"); ((-1), Mnl "AUGEAS_LANG")]].

(** augeas.rl:46 *)
Definition a_augeas_comment_nc_res : action := mkAction 5002 [VarSet 0 0].

(** augeas.rl:47 *)
Definition a_augeas_comment_nc_inc : action := mkAction 5003 [VarAdd 0 1].

(** augeas.rl:48 *)
Definition a_augeas_comment_nc_dec : action := mkAction 5004 [VarAdd 0 (-1)].

(** augeas.rl:50-61 *)
Definition m_augeas_nested_block_comment : rx :=
  CatFin (cats (Aug [Enter a_augeas_comment_nc_res; Finish a_comment] (Lit (bytes "(*"))) [
    Star (alts (Aug [Leave (mkAction 5501 [Entity (-2)]); Leave a_augeas_ccallback] m_newline) [
      m_ws;
      Aug [Finish a_augeas_comment_nc_inc; Finish a_comment] (Lit (bytes "(*"));
      Aug [Finish a_augeas_comment_nc_dec; Finish a_comment] (Lit (bytes "*)"));
      Aug [Finish a_comment] (Diff m_nonnewline m_ws)])]) (Aug [Finish a_comment] (Aug [When (IsZero 0) true] (Lit (bytes "*)")))).

(** augeas.rl:63-63 *)
Definition m_augeas_comment : rx :=
  m_augeas_nested_block_comment.

(** augeas.rl:64-64 *)
Definition m_augeas_string : rx :=
  cats (Aug [Finish a_code] (Lit (bytes """"))) [
    Star (alts (NCls [(10, 10); (12, 13); (34, 34); (92, 92)]) [cats (Lit (bytes "\")) [m_nonnewline]]);
    Lit (bytes """")].

(** augeas.rl:67-73 *)
Definition i_augeas_line : instance :=
  Scanner [
    (Aug [All (mkAction 5503 [Entity 0])] m_spaces, Some a_augeas_ccallback);
    (m_augeas_comment, None);
    (m_augeas_string, None);
    (Aug [All (mkAction 5504 [Entity (-1)])] m_newline, Some a_augeas_ccallback);
    (Aug [All (mkAction 5505 [Entity 3])] (NotChr r_space), Some a_augeas_ccallback)].

(** augeas.rl:77 *)
Definition a_augeas_ecallback : action := mkAction 5005 [Report "AUGEAS_LANG" ["space"; "comment"; "string"; "any"]].

(** augeas.rl:81-87 *)
Definition m_augeas_comment_entity : rx :=
  CatFin (cats (Aug [Enter a_augeas_comment_nc_res] (Lit (bytes "(*"))) [
    Star (alts (Aug [Finish a_augeas_comment_nc_inc] (Lit (bytes "(*"))) [
      Aug [Finish a_augeas_comment_nc_dec] (Lit (bytes "*)"));
      r_any])]) (Aug [When (IsZero 0) true] (Lit (bytes "*)"))).

(** augeas.rl:89-94 *)
Definition i_augeas_entity : instance :=
  Scanner [
    (Aug [All (mkAction 5507 [Entity 0])] (Plus r_space), Some a_augeas_ecallback);
    (Aug [All (mkAction 5508 [Entity 1])] m_augeas_comment_entity, Some a_augeas_ecallback);
    (NotChr r_space, None)].

Definition the_parser : parser := mkParser [i_augeas_line] "AUGEAS_LANG".
Definition the_entities : parser := mkParser [i_augeas_entity] "AUGEAS_LANG".
