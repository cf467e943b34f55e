(** Transcription of /repo/src/parsers/smalltalk.rl: the line counting machine and the
    entity machine (written by tools/ragel/gen.py). *)
From Coq Require Import ZArith String List.
From Verif Require Import Base RagelSyntax.
From Verif.Parsers Require Import Common.
Import ListNotations.
Open Scope string_scope.
Open Scope Z_scope.
Open Scope list_scope.

(** smalltalk.rl:31 *)
Definition a_smalltalk_ccallback : action := mkAction 95001 [Switch [(0, Mls); (3, Mcode); ((-2), Minl "SMALLTALK_LANG"); ((-1), Mnl "SMALLTALK_LANG")]].

(** smalltalk.rl:47-54 *)
Definition m_smalltalk_comment : rx :=
  cats (Aug [Finish a_comment] (Lit (bytes """"))) [
    Star (alts (Aug [Leave (mkAction 95501 [Entity (-2)]); Leave a_smalltalk_ccallback] m_newline) [
      m_ws;
      Aug [Finish a_comment] (NCls [(9, 10); (12, 13); (32, 32); (34, 34)])]);
    Lit (bytes """")].

(** smalltalk.rl:56-56 *)
Definition m_smalltalk_string : rx :=
  cats (Aug [Finish a_code] (Lit (bytes "'"))) [
    Star (NCls [(10, 10); (12, 13); (39, 39)]);
    Lit (bytes "'")].

(** smalltalk.rl:58-64 *)
Definition i_smalltalk_line : instance :=
  Scanner [
    (Aug [All (mkAction 95502 [Entity 0])] m_spaces, Some a_smalltalk_ccallback);
    (m_smalltalk_comment, None);
    (m_smalltalk_string, None);
    (Aug [All (mkAction 95503 [Entity (-1)])] m_newline, Some a_smalltalk_ccallback);
    (Aug [All (mkAction 95504 [Entity 3])] (NotChr r_space), Some a_smalltalk_ccallback)].

(** smalltalk.rl:68 *)
Definition a_smalltalk_ecallback : action := mkAction 95002 [Report "SMALLTALK_LANG" ["space"; "comment"; "string"; "any"]].

(** smalltalk.rl:73-73 *)
Definition m_smalltalk_comment_entity : rx :=
  CatFin (cats (Lit (bytes """")) [Star r_any]) (Lit (bytes """")).

(** smalltalk.rl:75-80 *)
Definition i_smalltalk_entity : instance :=
  Scanner [
    (Aug [All (mkAction 95505 [Entity 0])] (Plus r_space), Some a_smalltalk_ecallback);
    (Aug [All (mkAction 95506 [Entity 1])] m_smalltalk_comment_entity, Some a_smalltalk_ecallback);
    (NotChr r_space, None)].

Definition the_parser : parser := mkParser [i_smalltalk_line] "SMALLTALK_LANG".
Definition the_entities : parser := mkParser [i_smalltalk_entity] "SMALLTALK_LANG".
