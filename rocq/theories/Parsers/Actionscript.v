(** Transcription of /repo/src/parsers/actionscript.rl: the line counting machine and the
    entity machine (written by tools/ragel/gen.py). *)
From Coq Require Import ZArith String List.
From Verif Require Import Base RagelSyntax.
From Verif.Parsers Require Import Common.
Import ListNotations.
Open Scope string_scope.
Open Scope Z_scope.
Open Scope list_scope.

(** actionscript.rl:31 *)
Definition a_as_ccallback : action := mkAction 1001 [Switch [(0, Mls); (3, Mcode); ((-2), Minl "AS_LANG"); ((-1), Mnl "AS_LANG")]].

(** actionscript.rl:47-47 *)
Definition m_as_line_comment : rx :=
  cats (Aug [Finish a_comment] (Lit (bytes "//"))) [Star m_nonnewline].

(** actionscript.rl:48-55 *)
Definition m_as_block_comment : rx :=
  CatFin (cats (Aug [Finish a_comment] (Lit (bytes "/*"))) [
    Star (alts (Aug [Leave (mkAction 1501 [Entity (-2)]); Leave a_as_ccallback] m_newline) [
      m_ws;
      Aug [Finish a_comment] (Diff m_nonnewline m_ws)])]) (Lit (bytes "*/")).

(** actionscript.rl:56-56 *)
Definition m_as_comment : rx :=
  alts m_as_line_comment [m_as_block_comment].

(** actionscript.rl:58-58 *)
Definition m_as_sq_str : rx :=
  cats (Aug [Finish a_code] (Lit (bytes "'"))) [
    Star (alts (NCls [(10, 10); (12, 13); (39, 39); (92, 92)]) [cats (Lit (bytes "\")) [m_nonnewline]]);
    Lit (bytes "'")].

(** actionscript.rl:59-59 *)
Definition m_as_dq_str : rx :=
  cats (Aug [Finish a_code] (Lit (bytes """"))) [
    Star (alts (NCls [(10, 10); (12, 13); (34, 34); (92, 92)]) [cats (Lit (bytes "\")) [m_nonnewline]]);
    Lit (bytes """")].

(** actionscript.rl:60-66 *)
Definition m_as_ml_str : rx :=
  CatFin (cats (Aug [Finish a_code] (Lit (bytes "<![CDATA["))) [
    Star (alts (Aug [Leave (mkAction 1502 [Entity (-2)]); Leave a_as_ccallback] m_newline) [
      m_ws;
      Aug [Finish a_code] (Diff m_nonnewline m_ws)])]) (Lit (bytes "]]>")).

(** actionscript.rl:67-67 *)
Definition m_as_string : rx :=
  alts m_as_sq_str [m_as_dq_str; m_as_ml_str].

(** actionscript.rl:69-75 *)
Definition i_as_line : instance :=
  Scanner [
    (Aug [All (mkAction 1503 [Entity 0])] m_spaces, Some a_as_ccallback);
    (m_as_comment, None);
    (m_as_string, None);
    (Aug [All (mkAction 1504 [Entity (-1)])] m_newline, Some a_as_ccallback);
    (Aug [All (mkAction 1505 [Entity 3])] (NotChr r_space), Some a_as_ccallback)].

(** actionscript.rl:79 *)
Definition a_as_ecallback : action := mkAction 1002 [Report "AS_LANG" ["space"; "comment"; "string"; "any"]].

(** actionscript.rl:83-83 *)
Definition m_as_line_comment_entity : rx :=
  cats (Lit (bytes "//")) [Star m_nonnewline].

(** actionscript.rl:84-84 *)
Definition m_as_block_comment_entity : rx :=
  CatFin (cats (Lit (bytes "/*")) [Star r_any]) (Lit (bytes "*/")).

(** actionscript.rl:85-85 *)
Definition m_as_comment_entity : rx :=
  alts m_as_line_comment_entity [m_as_block_comment_entity].

(** actionscript.rl:87-92 *)
Definition i_as_entity : instance :=
  Scanner [
    (Aug [All (mkAction 1506 [Entity 0])] (Plus r_space), Some a_as_ecallback);
    (Aug [All (mkAction 1507 [Entity 1])] m_as_comment_entity, Some a_as_ecallback);
    (NotChr r_space, None)].

Definition the_parser : parser := mkParser [i_as_line] "AS_LANG".
Definition the_entities : parser := mkParser [i_as_entity] "AS_LANG".
