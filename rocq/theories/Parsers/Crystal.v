(** Transcription of /repo/src/parsers/crystal.rl: the line counting machine and the
    entity machine (written by tools/ragel/gen.py). *)
From Coq Require Import ZArith String List.
From Verif Require Import Base RagelSyntax.
From Verif.Parsers Require Import Common.
Import ListNotations.
Open Scope string_scope.
Open Scope Z_scope.
Open Scope list_scope.

(** crystal.rl:31 *)
Definition a_crystal_ccallback : action := mkAction 22001 [Switch [(0, Mls); (3, Mcode); ((-2), Minl "CRYSTAL_LANG"); ((-1), Mnl "CRYSTAL_LANG")]].

(** crystal.rl:47-47 *)
Definition m_crystal_line_comment : rx :=
  cats (Aug [Finish a_comment] (Lit (bytes "#"))) [Star m_nonnewline].

(** crystal.rl:50-57 *)
Definition m_crystal_block_comment : rx :=
  CatFin (cats (Aug [Finish a_enqueue; Finish a_comment] (Lit (bytes "=begin"))) [
    Star (alts (Aug [Leave (mkAction 22501 [Entity (-2)]); Leave a_crystal_ccallback] m_newline) [
      m_ws;
      Aug [Finish a_comment] (Diff m_nonnewline m_ws)])]) (Aug [Finish a_commit] (Lit (bytes "=end"))).

(** crystal.rl:58-58 *)
Definition m_crystal_comment : rx :=
  alts m_crystal_line_comment [m_crystal_block_comment].

(** crystal.rl:60-69 *)
Definition m_crystal_dq_str : rx :=
  cats (Aug [Finish a_enqueue; Finish a_code] (Lit (bytes """"))) [
    Star (alts (Aug [Leave (mkAction 22502 [Entity (-2)]); Leave a_crystal_ccallback] m_newline) [
      m_ws;
      Aug [Finish a_code] (NCls [(9, 10); (12, 13); (32, 32); (34, 34); (92, 92)]);
      cats (Lit (bytes "\")) [Aug [Finish a_code] m_nonnewline]]);
    Aug [Finish a_commit; Finish a_code] (Lit (bytes """"))].

(** crystal.rl:79-88 *)
Definition m_crystal_lit_str : rx :=
  cats (Lit (bytes "%")) [
    Opt (Cls [(81, 81); (113, 113)]);
    Aug [Finish a_enqueue; Finish a_code] (Cls [(40, 40); (91, 91); (123, 123)]);
    Star (alts (Aug [Leave (mkAction 22503 [Entity (-2)]); Leave a_crystal_ccallback] m_newline) [
      m_ws;
      Aug [Finish a_code] (NCls [(9, 10); (12, 13); (32, 32); (41, 41); (92, 93); (125, 125)]);
      cats (Lit (bytes "\")) [Aug [Finish a_code] m_nonnewline]]);
    Aug [Finish a_commit; Finish a_code] (Cls [(41, 41); (93, 93); (125, 125)])].

(** crystal.rl:89-98 *)
Definition m_crystal_cmd_str : rx :=
  cats (Aug [Finish a_enqueue; Finish a_code] (Lit (bytes "`"))) [
    Star (alts (Aug [Leave (mkAction 22504 [Entity (-2)]); Leave a_crystal_ccallback] m_newline) [
      m_ws;
      Aug [Finish a_code] (NCls [(9, 10); (12, 13); (32, 32); (92, 92); (96, 96)]);
      cats (Lit (bytes "\")) [Aug [Finish a_code] m_nonnewline]]);
    Aug [Finish a_commit; Finish a_code] (Lit (bytes "`"))].

(** crystal.rl:99-99 *)
Definition m_crystal_regex : rx :=
  cats (Lit (bytes "/")) [
    Star (alts (NCls [(10, 10); (12, 13); (47, 47); (92, 92)]) [cats (Lit (bytes "\")) [m_nonnewline]]);
    Aug [Finish a_code] (Lit (bytes "/"))].

(** crystal.rl:102-111 *)
Definition m_crystal_lit_other : rx :=
  cats (Lit (bytes "%")) [
    Cls [(114, 114); (119, 120)];
    Aug [Finish a_enqueue; Finish a_code] (Cls [(40, 40); (91, 91); (123, 123)]);
    Star (alts (Aug [Leave (mkAction 22505 [Entity (-2)]); Leave a_crystal_ccallback] m_newline) [
      m_ws;
      Aug [Finish a_code] (NCls [(9, 10); (12, 13); (32, 32); (41, 41); (92, 93); (125, 125)]);
      cats (Lit (bytes "\")) [Aug [Finish a_code] m_nonnewline]]);
    Aug [Finish a_commit; Finish a_code] (Cls [(41, 41); (93, 93); (125, 125)])].

(** crystal.rl:116-118 *)
Definition m_crystal_string : rx :=
  alts m_crystal_dq_str [
    m_crystal_lit_str;
    m_crystal_cmd_str;
    m_crystal_regex;
    m_crystal_lit_other].

(** crystal.rl:120-126 *)
Definition i_crystal_line : instance :=
  Scanner [
    (Aug [All (mkAction 22506 [Entity 0])] m_spaces, Some a_crystal_ccallback);
    (m_crystal_comment, None);
    (m_crystal_string, None);
    (Aug [All (mkAction 22507 [Entity (-1)])] m_newline, Some a_crystal_ccallback);
    (Aug [All (mkAction 22508 [Entity 3])] (NotChr r_space), Some a_crystal_ccallback)].

(** crystal.rl:130 *)
Definition a_crystal_ecallback : action := mkAction 22002 [Report "CRYSTAL_LANG" ["space"; "comment"; "string"; "any"]].

(** crystal.rl:134-134 *)
Definition m_crystal_line_comment_entity : rx :=
  cats (Lit (bytes "#")) [Star m_nonnewline].

(** crystal.rl:135-136 *)
Definition m_crystal_block_comment_entity : rx :=
  CatFin (cats (Aug [When StartsLine true] (Lit (bytes "="))) [Lit (bytes "begin"); Star r_any]) (cats (Aug [When StartsLine true] (Lit (bytes "="))) [Lit (bytes "end")]).

(** crystal.rl:137-137 *)
Definition m_crystal_comment_entity : rx :=
  alts m_crystal_line_comment_entity [m_crystal_block_comment_entity].

(** crystal.rl:139-144 *)
Definition i_crystal_entity : instance :=
  Scanner [
    (Aug [All (mkAction 22509 [Entity 0])] (Plus r_space), Some a_crystal_ecallback);
    (Aug [All (mkAction 22510 [Entity 1])] m_crystal_comment_entity, Some a_crystal_ecallback);
    (NotChr r_space, None)].

Definition the_parser : parser := mkParser [i_crystal_line] "CRYSTAL_LANG".
Definition the_entities : parser := mkParser [i_crystal_entity] "CRYSTAL_LANG".
