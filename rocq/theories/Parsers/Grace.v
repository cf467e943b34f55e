(** Transcription of /repo/src/parsers/grace.rl: the line counting machine and the
    entity machine (written by tools/ragel/gen.py). *)
From Coq Require Import ZArith String List.
From Verif Require Import Base RagelSyntax.
From Verif.Parsers Require Import Common.
Import ListNotations.
Open Scope string_scope.
Open Scope Z_scope.
Open Scope list_scope.

(** grace.rl:32 *)
Definition a_grace_ccallback : action := mkAction 41001 [Switch [(0, Mls); (3, Mcode); ((-2), Minl "GRACE_LANG"); ((-1), Mnl "GRACE_LANG")]].

(** grace.rl:48-48 *)
Definition m_grace_comment : rx :=
  cats (Aug [Finish a_comment] (Lit (bytes "//"))) [Star m_nonnewline].

(** grace.rl:50-57 *)
Definition m_grace_string : rx :=
  cats (Aug [Finish a_enqueue; Finish a_code] (Lit (bytes """"))) [
    Star (alts (Aug [Leave (mkAction 41501 [Entity (-2)]); Leave a_grace_ccallback] m_newline) [
      m_ws;
      Aug [Finish a_code] (NCls [(9, 10); (12, 13); (32, 32); (34, 34); (92, 92)])]);
    Aug [Finish a_commit] (Lit (bytes """"))].

(** grace.rl:59-65 *)
Definition i_grace_line : instance :=
  Scanner [
    (Aug [All (mkAction 41502 [Entity 0])] m_spaces, Some a_grace_ccallback);
    (m_grace_comment, None);
    (m_grace_string, None);
    (Aug [All (mkAction 41503 [Entity (-1)])] m_newline, Some a_grace_ccallback);
    (Aug [All (mkAction 41504 [Entity 3])] (NotChr r_space), Some a_grace_ccallback)].

(** grace.rl:69 *)
Definition a_grace_ecallback : action := mkAction 41002 [Report "GRACE_LANG" ["space"; "comment"; "string"; "any"]].

(** grace.rl:73-73 *)
Definition m_grace_comment_entity : rx :=
  cats (Lit (bytes "//")) [Star m_nonnewline].

(** grace.rl:75-80 *)
Definition i_grace_entity : instance :=
  Scanner [
    (Aug [All (mkAction 41505 [Entity 0])] (Plus r_space), Some a_grace_ecallback);
    (Aug [All (mkAction 41506 [Entity 1])] m_grace_comment_entity, Some a_grace_ecallback);
    (NotChr r_space, None)].

Definition the_parser : parser := mkParser [i_grace_line] "GRACE_LANG".
Definition the_entities : parser := mkParser [i_grace_entity] "GRACE_LANG".
