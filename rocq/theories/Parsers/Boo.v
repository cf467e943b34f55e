(** Transcription of /repo/src/parsers/boo.rl: the line counting machine and the
    entity machine (written by tools/ragel/gen.py). *)
From Coq Require Import ZArith String List.
From Verif Require Import Base RagelSyntax.
From Verif.Parsers Require Import Common.
Import ListNotations.
Open Scope string_scope.
Open Scope Z_scope.
Open Scope list_scope.

(** boo.rl:31 *)
Definition a_boo_ccallback : action := mkAction 12001 [Switch [(0, Mls); (3, Mcode); ((-2), Minl "BOO_LANG"); ((-1), Mnl "BOO_LANG")]].

(** boo.rl:51-51 *)
Definition m_boo_line_comment : rx :=
  cats (Aug [Finish a_comment] (alts (Lit (bytes "#")) [Lit (bytes "//")])) [Star m_nonnewline].

(** boo.rl:47 *)
Definition a_boo_comment_nc_res : action := mkAction 12002 [VarSet 0 0].

(** boo.rl:48 *)
Definition a_boo_comment_nc_inc : action := mkAction 12003 [VarAdd 0 1].

(** boo.rl:49 *)
Definition a_boo_comment_nc_dec : action := mkAction 12004 [VarAdd 0 (-1)].

(** boo.rl:52-63 *)
Definition m_boo_block_comment : rx :=
  CatFin (cats (Aug [Enter a_boo_comment_nc_res; Finish a_comment] (Lit (bytes "/*"))) [
    Star (alts (Aug [Leave (mkAction 12501 [Entity (-2)]); Leave a_boo_ccallback] m_newline) [
      m_ws;
      Aug [Finish a_boo_comment_nc_inc; Finish a_comment] (Lit (bytes "/*"));
      Aug [Finish a_boo_comment_nc_dec; Finish a_comment] (Lit (bytes "*/"));
      Aug [Finish a_comment] (NotChr r_space)])]) (Aug [Finish a_comment] (Aug [When (IsZero 0) true] (Lit (bytes "*/")))).

(** boo.rl:64-71 *)
Definition m_boo_doc_comment : rx :=
  CatFin (cats (Aug [Finish a_comment] (Lit (bytes """"""""))) [
    Star (alts (Aug [Leave (mkAction 12503 [Entity (-2)]); Leave a_boo_ccallback] m_newline) [
      m_ws;
      Aug [Finish a_comment] (Diff m_nonnewline m_ws)])]) (Aug [Finish a_comment] (Lit (bytes """"""""))).

(** boo.rl:72-72 *)
Definition m_boo_comment : rx :=
  alts m_boo_line_comment [m_boo_block_comment; m_boo_doc_comment].

(** boo.rl:74-74 *)
Definition m_boo_char : rx :=
  cats (Lit (bytes "'")) [
    alts (NCls [(10, 10); (12, 13); (39, 39); (92, 92)]) [cats (Lit (bytes "\")) [m_nonnewline]];
    Lit (bytes "'")].

(** boo.rl:75-77 *)
Definition m_boo_dq_str : rx :=
  cats (Lit (bytes """")) [
    Aug [Finish (mkAction 12505 [Hold])] (alts (NCls [(34, 34)]) [
      cats (Lit (bytes """")) [Aug [Finish (mkAction 12504 [Hold])] (NCls [(34, 34)])]]);
    Star (alts (NCls [(10, 10); (12, 13); (34, 34); (92, 92)]) [cats (Lit (bytes "\")) [m_nonnewline]]);
    Lit (bytes """")].

(** boo.rl:78-78 *)
Definition m_boo_regex : rx :=
  cats (Lit (bytes "/")) [
    Aug [Finish (mkAction 12506 [Hold])] (NCls [(42, 42); (47, 47)]);
    Star (alts (NCls [(10, 10); (12, 13); (47, 47); (92, 92)]) [cats (Lit (bytes "\")) [m_nonnewline]]);
    Lit (bytes "/")].

(** boo.rl:79-79 *)
Definition m_boo_string : rx :=
  Aug [Finish a_code] (alts m_boo_char [m_boo_dq_str; m_boo_regex]).

(** boo.rl:81-87 *)
Definition i_boo_line : instance :=
  Scanner [
    (Aug [All (mkAction 12507 [Entity 0])] m_spaces, Some a_boo_ccallback);
    (m_boo_comment, None);
    (m_boo_string, None);
    (Aug [All (mkAction 12508 [Entity (-1)])] m_newline, Some a_boo_ccallback);
    (Aug [All (mkAction 12509 [Entity 3])] (NotChr r_space), Some a_boo_ccallback)].

(** boo.rl:91 *)
Definition a_boo_ecallback : action := mkAction 12005 [Report "BOO_LANG" ["space"; "comment"; "string"; "any"]].

(** boo.rl:95-95 *)
Definition m_boo_line_comment_entity : rx :=
  cats (alts (Lit (bytes "#")) [Lit (bytes "//")]) [Star m_nonnewline].

(** boo.rl:96-102 *)
Definition m_boo_block_comment_entity : rx :=
  CatFin (cats (Aug [Enter a_boo_comment_nc_res] (Lit (bytes "/*"))) [
    Star (alts (Aug [Finish a_boo_comment_nc_inc] (Lit (bytes "/*"))) [
      Aug [Finish a_boo_comment_nc_dec] (Lit (bytes "*/"));
      r_any])]) (Aug [When (IsZero 0) true] (Lit (bytes "*/"))).

(** boo.rl:103-103 *)
Definition m_boo_comment_entity : rx :=
  alts m_boo_line_comment_entity [m_boo_block_comment_entity].

(** boo.rl:105-110 *)
Definition i_boo_entity : instance :=
  Scanner [
    (Aug [All (mkAction 12511 [Entity 0])] (Plus r_space), Some a_boo_ecallback);
    (Aug [All (mkAction 12512 [Entity 1])] m_boo_comment_entity, Some a_boo_ecallback);
    (NotChr r_space, None)].

Definition the_parser : parser := mkParser [i_boo_line] "BOO_LANG".
Definition the_entities : parser := mkParser [i_boo_entity] "BOO_LANG".
