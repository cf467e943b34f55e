(** Transcription of /repo/src/parsers/ruby.rl: the line counting machine and the
    entity machine (written by tools/ragel/gen.py). *)
From Coq Require Import ZArith String List.
From Verif Require Import Base RagelSyntax.
From Verif.Parsers Require Import Common.
Import ListNotations.
Open Scope string_scope.
Open Scope Z_scope.
Open Scope list_scope.

(** ruby.rl:31 *)
Definition a_ruby_ccallback : action := mkAction 90001 [Switch [(0, Mls); (3, Mcode); ((-2), Minl "RUBY_LANG"); ((-1), Mnl "RUBY_LANG")]].

(** ruby.rl:47-47 *)
Definition m_ruby_line_comment : rx :=
  cats (Aug [Finish a_comment] (Lit (bytes "#"))) [Star m_nonnewline].

(** ruby.rl:50-57 *)
Definition m_ruby_block_comment : rx :=
  CatFin (cats (Aug [Finish a_enqueue; Finish a_comment] (Lit (bytes "=begin"))) [
    Star (alts (Aug [Leave (mkAction 90501 [Entity (-2)]); Leave a_ruby_ccallback] m_newline) [
      m_ws;
      Aug [Finish a_comment] (Diff m_nonnewline m_ws)])]) (Aug [Finish a_commit] (Lit (bytes "=end"))).

(** ruby.rl:58-58 *)
Definition m_ruby_comment : rx :=
  alts m_ruby_line_comment [m_ruby_block_comment].

(** ruby.rl:60-69 *)
Definition m_ruby_sq_str : rx :=
  cats (Aug [Finish a_enqueue; Finish a_code] (Lit (bytes "'"))) [
    Star (alts (Aug [Leave (mkAction 90502 [Entity (-2)]); Leave a_ruby_ccallback] m_newline) [
      m_ws;
      Aug [Finish a_code] (NCls [(9, 10); (12, 13); (32, 32); (39, 39); (92, 92)]);
      cats (Lit (bytes "\")) [Aug [Finish a_code] m_nonnewline]]);
    Aug [Finish a_commit; Finish a_code] (Lit (bytes "'"))].

(** ruby.rl:70-79 *)
Definition m_ruby_dq_str : rx :=
  cats (Aug [Finish a_enqueue; Finish a_code] (Lit (bytes """"))) [
    Star (alts (Aug [Leave (mkAction 90503 [Entity (-2)]); Leave a_ruby_ccallback] m_newline) [
      m_ws;
      Aug [Finish a_code] (NCls [(9, 10); (12, 13); (32, 32); (34, 34); (92, 92)]);
      cats (Lit (bytes "\")) [Aug [Finish a_code] m_nonnewline]]);
    Aug [Finish a_commit; Finish a_code] (Lit (bytes """"))].

(** ruby.rl:89-98 *)
Definition m_ruby_lit_str : rx :=
  cats (Lit (bytes "%")) [
    Opt (Cls [(81, 81); (113, 113)]);
    Aug [Finish a_enqueue; Finish a_code] (Cls [(40, 40); (91, 91); (123, 123)]);
    Star (alts (Aug [Leave (mkAction 90504 [Entity (-2)]); Leave a_ruby_ccallback] m_newline) [
      m_ws;
      Aug [Finish a_code] (NCls [(9, 10); (12, 13); (32, 32); (41, 41); (92, 93); (125, 125)]);
      cats (Lit (bytes "\")) [Aug [Finish a_code] m_nonnewline]]);
    Aug [Finish a_commit; Finish a_code] (Cls [(41, 41); (93, 93); (125, 125)])].

(** ruby.rl:99-108 *)
Definition m_ruby_cmd_str : rx :=
  cats (Aug [Finish a_enqueue; Finish a_code] (Lit (bytes "`"))) [
    Star (alts (Aug [Leave (mkAction 90505 [Entity (-2)]); Leave a_ruby_ccallback] m_newline) [
      m_ws;
      Aug [Finish a_code] (NCls [(9, 10); (12, 13); (32, 32); (92, 92); (96, 96)]);
      cats (Lit (bytes "\")) [Aug [Finish a_code] m_nonnewline]]);
    Aug [Finish a_commit; Finish a_code] (Lit (bytes "`"))].

(** ruby.rl:109-109 *)
Definition m_ruby_regex : rx :=
  cats (Lit (bytes "/")) [
    Star (alts (NCls [(10, 10); (12, 13); (47, 47); (92, 92)]) [cats (Lit (bytes "\")) [m_nonnewline]]);
    Aug [Finish a_code] (Lit (bytes "/"))].

(** ruby.rl:112-121 *)
Definition m_ruby_lit_other : rx :=
  cats (Lit (bytes "%")) [
    Cls [(114, 114); (119, 120)];
    Aug [Finish a_enqueue; Finish a_code] (Cls [(40, 40); (91, 91); (123, 123)]);
    Star (alts (Aug [Leave (mkAction 90506 [Entity (-2)]); Leave a_ruby_ccallback] m_newline) [
      m_ws;
      Aug [Finish a_code] (NCls [(9, 10); (12, 13); (32, 32); (41, 41); (92, 93); (125, 125)]);
      cats (Lit (bytes "\")) [Aug [Finish a_code] m_nonnewline]]);
    Aug [Finish a_commit; Finish a_code] (Cls [(41, 41); (93, 93); (125, 125)])].

(** ruby.rl:126-128 *)
Definition m_ruby_string : rx :=
  alts m_ruby_sq_str [
    m_ruby_dq_str;
    m_ruby_lit_str;
    m_ruby_cmd_str;
    m_ruby_regex;
    m_ruby_lit_other].

(** ruby.rl:130-136 *)
Definition i_ruby_line : instance :=
  Scanner [
    (Aug [All (mkAction 90507 [Entity 0])] m_spaces, Some a_ruby_ccallback);
    (m_ruby_comment, None);
    (m_ruby_string, None);
    (Aug [All (mkAction 90508 [Entity (-1)])] m_newline, Some a_ruby_ccallback);
    (Aug [All (mkAction 90509 [Entity 3])] (NotChr r_space), Some a_ruby_ccallback)].

(** ruby.rl:140 *)
Definition a_ruby_ecallback : action := mkAction 90002 [Report "RUBY_LANG" ["space"; "comment"; "string"; "any"]].

(** ruby.rl:144-144 *)
Definition m_ruby_line_comment_entity : rx :=
  cats (Lit (bytes "#")) [Star m_nonnewline].

(** ruby.rl:145-146 *)
Definition m_ruby_block_comment_entity : rx :=
  CatFin (cats (Aug [When StartsLine true] (Lit (bytes "="))) [Lit (bytes "begin"); Star r_any]) (cats (Aug [When StartsLine true] (Lit (bytes "="))) [Lit (bytes "end")]).

(** ruby.rl:147-147 *)
Definition m_ruby_comment_entity : rx :=
  alts m_ruby_line_comment_entity [m_ruby_block_comment_entity].

(** ruby.rl:149-154 *)
Definition i_ruby_entity : instance :=
  Scanner [
    (Aug [All (mkAction 90510 [Entity 0])] (Plus r_space), Some a_ruby_ecallback);
    (Aug [All (mkAction 90511 [Entity 1])] m_ruby_comment_entity, Some a_ruby_ecallback);
    (NotChr r_space, None)].

Definition the_parser : parser := mkParser [i_ruby_line] "RUBY_LANG".
Definition the_entities : parser := mkParser [i_ruby_entity] "RUBY_LANG".
