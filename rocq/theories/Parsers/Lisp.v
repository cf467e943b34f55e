(** Transcription of /repo/src/parsers/lisp.rl: the line counting machine and the
    entity machine (written by tools/ragel/gen.py). *)
From Coq Require Import ZArith String List.
From Verif Require Import Base RagelSyntax.
From Verif.Parsers Require Import Common.
Import ListNotations.
Open Scope string_scope.
Open Scope Z_scope.
Open Scope list_scope.

(** lisp.rl:31 *)
Definition a_lisp_ccallback : action := mkAction 55001 [Switch [(0, Mls); (3, Mcode); ((-2), Minl "LISP_LANG"); ((-1), Mnl "LISP_LANG")]].

(** lisp.rl:55-55 *)
Definition m_lisp_line_comment : rx :=
  cats (Aug [Finish a_comment] (Lit (bytes ";"))) [Star m_nonnewline].

(** lisp.rl:47-53 *)
Definition m_lisp_docstring : rx :=
  CatFin (cats (Aug [Finish a_comment] (Rep 3 (Lit (bytes """")))) [
    Star (alts (Aug [Leave (mkAction 55501 [Entity (-2)]); Leave a_lisp_ccallback] m_newline) [
      m_ws;
      Aug [Finish a_comment] (Diff m_nonnewline m_ws)])]) (Aug [Finish a_comment] (Lit (bytes """"""""))).

(** lisp.rl:57-57 *)
Definition m_lisp_comment : rx :=
  alts m_lisp_line_comment [m_lisp_docstring].

(** lisp.rl:59-60 *)
Definition m_lisp_empty_string : rx :=
  cats (Rep 2 (Lit (bytes """"))) [
    Aug [Finish (mkAction 55502 [Hold]); Finish a_code] (NCls [(34, 34)])].

(** lisp.rl:62-63 *)
Definition m_lisp_char_string : rx :=
  cats (Lit (bytes """")) [NCls [(34, 34)]; Aug [Finish a_code] (Lit (bytes """"))].

(** lisp.rl:65-74 *)
Definition m_lisp_regular_string : rx :=
  cats (Lit (bytes """")) [
    Aug [Finish a_code] (Rep 2 (NCls [(34, 34)]));
    Star (alts (Aug [Leave (mkAction 55503 [Entity (-2)]); Leave a_lisp_ccallback] m_newline) [
      m_ws;
      Aug [Finish a_code] (NCls [(9, 10); (12, 13); (32, 32); (34, 34); (92, 92)]);
      cats (Lit (bytes "\")) [Aug [Finish a_code] m_nonnewline]]);
    Lit (bytes """")].

(** lisp.rl:76-76 *)
Definition m_lisp_string : rx :=
  alts m_lisp_empty_string [m_lisp_char_string; m_lisp_regular_string].

(** lisp.rl:78-84 *)
Definition i_lisp_line : instance :=
  Scanner [
    (Aug [All (mkAction 55504 [Entity 0])] m_spaces, Some a_lisp_ccallback);
    (m_lisp_comment, None);
    (m_lisp_string, None);
    (Aug [All (mkAction 55505 [Entity (-1)])] m_newline, Some a_lisp_ccallback);
    (Aug [All (mkAction 55506 [Entity 3])] (NotChr r_space), Some a_lisp_ccallback)].

(** lisp.rl:88 *)
Definition a_lisp_ecallback : action := mkAction 55002 [Report "LISP_LANG" ["space"; "comment"; "string"; "any"]].

(** lisp.rl:92-92 *)
Definition m_lisp_comment_entity : rx :=
  cats (Lit (bytes ";")) [Star m_nonnewline].

(** lisp.rl:94-99 *)
Definition i_lisp_entity : instance :=
  Scanner [
    (Aug [All (mkAction 55507 [Entity 0])] (Plus r_space), Some a_lisp_ecallback);
    (Aug [All (mkAction 55508 [Entity 1])] m_lisp_comment_entity, Some a_lisp_ecallback);
    (NotChr r_space, None)].

Definition the_parser : parser := mkParser [i_lisp_line] "LISP_LANG".
Definition the_entities : parser := mkParser [i_lisp_entity] "LISP_LANG".
