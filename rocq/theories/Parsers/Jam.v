(** Transcription of /repo/src/parsers/jam.rl: the line counting machine and the
    entity machine (written by tools/ragel/gen.py). *)
From Coq Require Import ZArith String List.
From Verif Require Import Base RagelSyntax.
From Verif.Parsers Require Import Common.
Import ListNotations.
Open Scope string_scope.
Open Scope Z_scope.
Open Scope list_scope.

(** jam.rl:31 *)
Definition a_jam_ccallback : action := mkAction 48001 [Switch [(0, Mls); (3, Mcode); ((-2), Minl "JAM_LANG"); ((-1), Mnl "JAM_LANG")]].

(** jam.rl:47-47 *)
Definition m_jam_comment : rx :=
  cats (Aug [Finish a_comment] (Lit (bytes "#"))) [Star m_nonnewline].

(** jam.rl:49-58 *)
Definition m_jam_sq_str : rx :=
  cats (Aug [Finish a_enqueue; Finish a_code] (Lit (bytes "'"))) [
    Star (alts (Aug [Leave (mkAction 48501 [Entity (-2)]); Leave a_jam_ccallback] m_newline) [
      m_ws;
      Aug [Finish a_code] (NCls [(9, 10); (12, 13); (32, 32); (39, 39); (92, 92)]);
      cats (Lit (bytes "\")) [Aug [Finish a_code] m_nonnewline]]);
    Aug [Finish a_commit] (Lit (bytes "'"))].

(** jam.rl:59-68 *)
Definition m_jam_dq_str : rx :=
  cats (Aug [Finish a_enqueue; Finish a_code] (Lit (bytes """"))) [
    Star (alts (Aug [Leave (mkAction 48502 [Entity (-2)]); Leave a_jam_ccallback] m_newline) [
      m_ws;
      Aug [Finish a_code] (NCls [(9, 10); (12, 13); (32, 32); (34, 34); (92, 92)]);
      cats (Lit (bytes "\")) [Aug [Finish a_code] m_nonnewline]]);
    Aug [Finish a_commit] (Lit (bytes """"))].

(** jam.rl:70-70 *)
Definition m_jam_string : rx :=
  alts m_jam_sq_str [m_jam_dq_str].

(** jam.rl:72-78 *)
Definition i_jam_line : instance :=
  Scanner [
    (Aug [All (mkAction 48503 [Entity 0])] m_spaces, Some a_jam_ccallback);
    (m_jam_comment, None);
    (m_jam_string, None);
    (Aug [All (mkAction 48504 [Entity (-1)])] m_newline, Some a_jam_ccallback);
    (Aug [All (mkAction 48505 [Entity 3])] (NotChr r_space), Some a_jam_ccallback)].

(** jam.rl:82 *)
Definition a_jam_ecallback : action := mkAction 48002 [Report "JAM_LANG" ["space"; "comment"; "string"; "any"]].

(** jam.rl:86-86 *)
Definition m_jam_comment_entity : rx :=
  cats (Lit (bytes "#")) [Star m_nonnewline].

(** jam.rl:88-93 *)
Definition i_jam_entity : instance :=
  Scanner [
    (Aug [All (mkAction 48506 [Entity 0])] (Plus r_space), Some a_jam_ecallback);
    (Aug [All (mkAction 48507 [Entity 1])] m_jam_comment_entity, Some a_jam_ecallback);
    (NotChr r_space, None)].

Definition the_parser : parser := mkParser [i_jam_line] "JAM_LANG".
Definition the_entities : parser := mkParser [i_jam_entity] "JAM_LANG".
