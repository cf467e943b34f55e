(** Transcription of /repo/src/parsers/python.rl: the line counting machine and the
    entity machine (written by tools/ragel/gen.py). *)
From Coq Require Import ZArith String List.
From Verif Require Import Base RagelSyntax.
From Verif.Parsers Require Import Common.
Import ListNotations.
Open Scope string_scope.
Open Scope Z_scope.
Open Scope list_scope.

(** python.rl:31 *)
Definition a_python_ccallback : action := mkAction 85001 [Switch [(0, Mls); (3, Mcode); ((-2), Minl "PYTHON_LANG"); ((-1), Mnl "PYTHON_LANG")]].

(** python.rl:47-47 *)
Definition m_python_line_comment : rx :=
  cats (Aug [Finish a_comment] (alts (Lit (bytes "#")) [Lit (bytes "//")])) [Star m_nonnewline].

(** python.rl:48-55 *)
Definition m_python_block_comment : rx :=
  CatFin (cats (Aug [Finish a_comment] (Lit (bytes "/*"))) [
    Star (alts (Aug [Leave (mkAction 85501 [Entity (-2)]); Leave a_python_ccallback] m_newline) [
      m_ws;
      Aug [Finish a_comment] (Diff m_nonnewline m_ws)])]) (Lit (bytes "*/")).

(** python.rl:56-63 *)
Definition m_python_sq_doc_str : rx :=
  CatFin (cats (Aug [Finish a_comment] (Lit (bytes "'''"))) [
    Star (alts (Aug [Leave (mkAction 85502 [Entity (-2)]); Leave a_python_ccallback] m_newline) [
      m_ws;
      Aug [Finish a_comment] (Diff m_nonnewline m_ws)])]) (Aug [Finish a_comment] (Lit (bytes "'''"))).

(** python.rl:64-71 *)
Definition m_python_dq_doc_str : rx :=
  CatFin (cats (Aug [Finish a_comment] (Lit (bytes """"""""))) [
    Star (alts (Aug [Leave (mkAction 85503 [Entity (-2)]); Leave a_python_ccallback] m_newline) [
      m_ws;
      Aug [Finish a_comment] (Diff m_nonnewline m_ws)])]) (Aug [Finish a_comment] (Lit (bytes """"""""))).

(** python.rl:72-73 *)
Definition m_python_comment : rx :=
  alts m_python_line_comment [m_python_block_comment; m_python_sq_doc_str; m_python_dq_doc_str].

(** python.rl:75-77 *)
Definition m_python_sq_str : rx :=
  cats (Lit (bytes "'")) [
    Aug [Finish (mkAction 85505 [Hold])] (alts (NCls [(39, 39)]) [
      cats (Lit (bytes "'")) [Aug [Finish (mkAction 85504 [Hold])] (NCls [(39, 39)])]]);
    Star (alts (NCls [(10, 10); (12, 13); (39, 39); (92, 92)]) [cats (Lit (bytes "\")) [m_nonnewline]]);
    Lit (bytes "'")].

(** python.rl:78-80 *)
Definition m_python_dq_str : rx :=
  cats (Lit (bytes """")) [
    Aug [Finish (mkAction 85507 [Hold])] (alts (NCls [(34, 34)]) [
      cats (Lit (bytes """")) [Aug [Finish (mkAction 85506 [Hold])] (NCls [(34, 34)])]]);
    Star (alts (NCls [(10, 10); (12, 13); (34, 34); (92, 92)]) [cats (Lit (bytes "\")) [m_nonnewline]]);
    Lit (bytes """")].

(** python.rl:81-81 *)
Definition m_python_string : rx :=
  Aug [Finish a_code] (alts m_python_sq_str [m_python_dq_str]).

(** python.rl:83-89 *)
Definition i_python_line : instance :=
  Scanner [
    (Aug [All (mkAction 85508 [Entity 0])] m_spaces, Some a_python_ccallback);
    (m_python_comment, None);
    (m_python_string, None);
    (Aug [All (mkAction 85509 [Entity (-1)])] m_newline, Some a_python_ccallback);
    (Aug [All (mkAction 85510 [Entity 3])] (NotChr r_space), Some a_python_ccallback)].

(** python.rl:93 *)
Definition a_python_ecallback : action := mkAction 85002 [Report "PYTHON_LANG" ["space"; "comment"; "string"; "any"]].

(** python.rl:98-98 *)
Definition m_python_line_comment_entity : rx :=
  cats (alts (Lit (bytes "#")) [Lit (bytes "//")]) [Star m_nonnewline].

(** python.rl:99-99 *)
Definition m_python_block_comment_entity : rx :=
  CatFin (cats (Lit (bytes "/*")) [Star r_any]) (Lit (bytes "*/")).

(** python.rl:100-100 *)
Definition m_python_sq_doc_str_entity : rx :=
  CatFin (cats (Lit (bytes "'''")) [Star r_any]) (Lit (bytes "'''")).

(** python.rl:101-101 *)
Definition m_python_dq_doc_str_entity : rx :=
  CatFin (cats (Lit (bytes """""""")) [Star r_any]) (Lit (bytes """""""")).

(** python.rl:102-104 *)
Definition m_python_comment_entity : rx :=
  alts m_python_line_comment_entity [
    m_python_block_comment_entity;
    m_python_sq_doc_str_entity;
    m_python_dq_doc_str_entity].

(** python.rl:106-111 *)
Definition i_python_entity : instance :=
  Scanner [
    (Aug [All (mkAction 85511 [Entity 0])] (Plus r_space), Some a_python_ecallback);
    (Aug [All (mkAction 85512 [Entity 1])] m_python_comment_entity, Some a_python_ecallback);
    (NotChr r_space, None)].

Definition the_parser : parser := mkParser [i_python_line] "PYTHON_LANG".
Definition the_entities : parser := mkParser [i_python_entity] "PYTHON_LANG".
