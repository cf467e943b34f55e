(** Transcription of /repo/src/parsers/ocaml.rl: the line counting machine and the
    entity machine (written by tools/ragel/gen.py). *)
From Coq Require Import ZArith String List.
From Verif Require Import Base RagelSyntax.
From Verif.Parsers Require Import Common.
Import ListNotations.
Open Scope string_scope.
Open Scope Z_scope.
Open Scope list_scope.

(** ocaml.rl:29 *)
Definition a_ocaml_ccallback : action := mkAction 74001 [Switch [(0, Mls); (3, Mcode); ((-2), Minl "OCAML_LANG"); ((-1), Mnl "OCAML_LANG")]].

(** ocaml.rl:45 *)
Definition a_ocaml_comment_nc_res : action := mkAction 74002 [VarSet 0 0].

(** ocaml.rl:46 *)
Definition a_ocaml_comment_nc_inc : action := mkAction 74003 [VarAdd 0 1].

(** ocaml.rl:47 *)
Definition a_ocaml_comment_nc_dec : action := mkAction 74004 [VarAdd 0 (-1)].

(** ocaml.rl:49-60 *)
Definition m_ocaml_nested_block_comment : rx :=
  CatFin (cats (Aug [Enter a_ocaml_comment_nc_res; Finish a_comment] (Lit (bytes "(*"))) [
    Star (alts (Aug [Leave (mkAction 74501 [Entity (-2)]); Leave a_ocaml_ccallback] m_newline) [
      m_ws;
      Aug [Finish a_ocaml_comment_nc_inc; Finish a_comment] (Lit (bytes "(*"));
      Aug [Finish a_ocaml_comment_nc_dec; Finish a_comment] (Lit (bytes "*)"));
      Aug [Finish a_comment] (Diff m_nonnewline m_ws)])]) (Aug [Finish a_comment] (Aug [When (IsZero 0) true] (Lit (bytes "*)")))).

(** ocaml.rl:62-62 *)
Definition m_ocaml_comment : rx :=
  m_ocaml_nested_block_comment.

(** ocaml.rl:63-63 *)
Definition m_ocaml_string : rx :=
  cats (Aug [Finish a_code] (Lit (bytes """"))) [
    Star (alts (NCls [(10, 10); (12, 13); (34, 34); (92, 92)]) [cats (Lit (bytes "\")) [m_nonnewline]]);
    Lit (bytes """")].

(** ocaml.rl:66-72 *)
Definition i_ocaml_line : instance :=
  Scanner [
    (Aug [All (mkAction 74503 [Entity 0])] m_spaces, Some a_ocaml_ccallback);
    (m_ocaml_comment, None);
    (m_ocaml_string, None);
    (Aug [All (mkAction 74504 [Entity (-1)])] m_newline, Some a_ocaml_ccallback);
    (Aug [All (mkAction 74505 [Entity 3])] (NotChr r_space), Some a_ocaml_ccallback)].

(** ocaml.rl:76 *)
Definition a_ocaml_ecallback : action := mkAction 74005 [Report "OCAML_LANG" ["space"; "comment"; "string"; "any"]].

(** ocaml.rl:80-86 *)
Definition m_ocaml_comment_entity : rx :=
  CatFin (cats (Aug [Enter a_ocaml_comment_nc_res] (Lit (bytes "(*"))) [
    Star (alts (Aug [Finish a_ocaml_comment_nc_inc] (Lit (bytes "(*"))) [
      Aug [Finish a_ocaml_comment_nc_dec] (Lit (bytes "*)"));
      r_any])]) (Aug [When (IsZero 0) true] (Lit (bytes "*)"))).

(** ocaml.rl:88-93 *)
Definition i_ocaml_entity : instance :=
  Scanner [
    (Aug [All (mkAction 74507 [Entity 0])] (Plus r_space), Some a_ocaml_ecallback);
    (Aug [All (mkAction 74508 [Entity 1])] m_ocaml_comment_entity, Some a_ocaml_ecallback);
    (NotChr r_space, None)].

Definition the_parser : parser := mkParser [i_ocaml_line] "OCAML_LANG".
Definition the_entities : parser := mkParser [i_ocaml_entity] "OCAML_LANG".
