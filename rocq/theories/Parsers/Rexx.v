(** Transcription of /repo/src/parsers/rexx.rl: the line counting machine and the
    entity machine (written by tools/ragel/gen.py). *)
From Coq Require Import ZArith String List.
From Verif Require Import Base RagelSyntax.
From Verif.Parsers Require Import Common.
Import ListNotations.
Open Scope string_scope.
Open Scope Z_scope.
Open Scope list_scope.

(** rexx.rl:31 *)
Definition a_rexx_ccallback : action := mkAction 88001 [Switch [(0, Mls); (3, Mcode); ((-2), Minl "REXX_LANG"); ((-1), Mnl "REXX_LANG")]].

(** rexx.rl:47 *)
Definition a_rexx_comment_nc_res : action := mkAction 88002 [VarSet 0 0].

(** rexx.rl:48 *)
Definition a_rexx_comment_nc_inc : action := mkAction 88003 [VarAdd 0 1].

(** rexx.rl:49 *)
Definition a_rexx_comment_nc_dec : action := mkAction 88004 [VarAdd 0 (-1)].

(** rexx.rl:51-62 *)
Definition m_rexx_comment : rx :=
  CatFin (cats (Aug [Enter a_rexx_comment_nc_res; Finish a_comment] (Lit (bytes "/*"))) [
    Star (alts (Aug [Leave (mkAction 88501 [Entity (-2)]); Leave a_rexx_ccallback] m_newline) [
      m_ws;
      Aug [Finish a_rexx_comment_nc_inc; Finish a_comment] (Lit (bytes "/*"));
      Aug [Finish a_rexx_comment_nc_dec; Finish a_comment] (Lit (bytes "*/"));
      Aug [Finish a_comment] (NotChr r_space)])]) (Aug [Finish a_comment] (Aug [When (IsZero 0) true] (Lit (bytes "*/")))).

(** rexx.rl:64-64 *)
Definition m_rexx_sq_str : rx :=
  cats (Aug [Finish a_code] (Lit (bytes "'"))) [
    Star (alts (NCls [(10, 10); (12, 13); (39, 39); (92, 92)]) [cats (Lit (bytes "\")) [m_nonnewline]]);
    Lit (bytes "'")].

(** rexx.rl:65-65 *)
Definition m_rexx_dq_str : rx :=
  cats (Aug [Finish a_code] (Lit (bytes """"))) [
    Star (alts (NCls [(10, 10); (12, 13); (34, 34); (92, 92)]) [cats (Lit (bytes "\")) [m_nonnewline]]);
    Lit (bytes """")].

(** rexx.rl:66-66 *)
Definition m_rexx_string : rx :=
  alts m_rexx_sq_str [m_rexx_dq_str].

(** rexx.rl:68-74 *)
Definition i_rexx_line : instance :=
  Scanner [
    (Aug [All (mkAction 88503 [Entity 0])] m_spaces, Some a_rexx_ccallback);
    (m_rexx_comment, None);
    (m_rexx_string, None);
    (Aug [All (mkAction 88504 [Entity (-1)])] m_newline, Some a_rexx_ccallback);
    (Aug [All (mkAction 88505 [Entity 3])] (NotChr r_space), Some a_rexx_ccallback)].

(** rexx.rl:78 *)
Definition a_rexx_ecallback : action := mkAction 88005 [Report "REXX_LANG" ["space"; "comment"; "string"; "any"]].

(** rexx.rl:82-88 *)
Definition m_rexx_comment_entity : rx :=
  CatFin (cats (Aug [Enter a_rexx_comment_nc_res] (Lit (bytes "/*"))) [
    Star (alts (Aug [Finish a_rexx_comment_nc_inc] (Lit (bytes "/*"))) [
      Aug [Finish a_rexx_comment_nc_dec] (Lit (bytes "*/"));
      r_any])]) (Aug [When (IsZero 0) true] (Lit (bytes "*/"))).

(** rexx.rl:90-95 *)
Definition i_rexx_entity : instance :=
  Scanner [
    (Aug [All (mkAction 88507 [Entity 0])] (Plus r_space), Some a_rexx_ecallback);
    (Aug [All (mkAction 88508 [Entity 1])] m_rexx_comment_entity, Some a_rexx_ecallback);
    (NotChr r_space, None)].

Definition the_parser : parser := mkParser [i_rexx_line] "REXX_LANG".
Definition the_entities : parser := mkParser [i_rexx_entity] "REXX_LANG".
