(** Transcription of /repo/src/parsers/idl_pvwave.rl: the line counting machine and the
    entity machine (written by tools/ragel/gen.py). *)
From Coq Require Import ZArith String List.
From Verif Require Import Base RagelSyntax.
From Verif.Parsers Require Import Common.
Import ListNotations.
Open Scope string_scope.
Open Scope Z_scope.
Open Scope list_scope.

(** idl_pvwave.rl:32 *)
Definition a_idl_pvwave_ccallback : action := mkAction 47001 [Switch [(0, Mls); (3, Mcode); ((-2), Minl "IDL_PVWAVE_LANG"); ((-1), Mnl "IDL_PVWAVE_LANG")]].

(** idl_pvwave.rl:48-48 *)
Definition m_idl_pvwave_comment : rx :=
  cats (Aug [Finish a_comment] (Lit (bytes ";"))) [Star m_nonnewline].

(** idl_pvwave.rl:50-55 *)
Definition i_idl_pvwave_line : instance :=
  Scanner [
    (Aug [All (mkAction 47501 [Entity 0])] m_spaces, Some a_idl_pvwave_ccallback);
    (m_idl_pvwave_comment, None);
    (Aug [All (mkAction 47502 [Entity (-1)])] m_newline, Some a_idl_pvwave_ccallback);
    (Aug [All (mkAction 47503 [Entity 3])] (NotChr r_space), Some a_idl_pvwave_ccallback)].

(** idl_pvwave.rl:59 *)
Definition a_idl_pvwave_ecallback : action := mkAction 47002 [Report "IDL_PVWAVE_LANG" ["space"; "comment"; "string"; "any"]].

(** idl_pvwave.rl:63-63 *)
Definition m_idl_pvwave_comment_entity : rx :=
  cats (Lit (bytes ";")) [Star m_nonnewline].

(** idl_pvwave.rl:65-70 *)
Definition i_idl_pvwave_entity : instance :=
  Scanner [
    (Aug [All (mkAction 47504 [Entity 0])] (Plus r_space), Some a_idl_pvwave_ecallback);
    (Aug [All (mkAction 47505 [Entity 1])] m_idl_pvwave_comment_entity, Some a_idl_pvwave_ecallback);
    (NotChr r_space, None)].

Definition the_parser : parser := mkParser [i_idl_pvwave_line] "IDL_PVWAVE_LANG".
Definition the_entities : parser := mkParser [i_idl_pvwave_entity] "IDL_PVWAVE_LANG".
