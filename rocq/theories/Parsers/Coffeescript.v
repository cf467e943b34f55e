(** Transcription of /repo/src/parsers/coffeescript.rl: the line counting machine and the
    entity machine (written by tools/ragel/gen.py). *)
From Coq Require Import ZArith String List.
From Verif Require Import Base RagelSyntax.
From Verif.Parsers Require Import Common Javascript.
Import ListNotations.
Open Scope string_scope.
Open Scope Z_scope.
Open Scope list_scope.

(** coffeescript.rl:32 *)
Definition a_coffeescript_ccallback : action := mkAction 20001 [Switch [(0, Mls); (3, Mcode); ((-2), Minl "COFFEESCRIPT_LANG"); ((-1), Mnl "COFFEESCRIPT_LANG")]].

(** coffeescript.rl:98-98 *)
Definition m_coffeescript_js_entry : rx :=
  Aug [Finish a_code] (Lit (bytes "`")).

(** coffeescript.rl:48-48 *)
Definition m_coffeescript_line_comment : rx :=
  cats (Aug [Finish a_comment] (Lit (bytes "#"))) [Star m_nonnewline].

(** coffeescript.rl:49-56 *)
Definition m_coffeescript_block_comment : rx :=
  CatFin (cats (Aug [Finish a_comment] (Lit (bytes "###"))) [
    Star (alts (Aug [Leave (mkAction 20501 [Entity (-2)]); Leave a_coffeescript_ccallback] m_newline) [
      m_ws;
      Aug [Finish a_comment] (Diff m_nonnewline m_ws)])]) (Lit (bytes "###")).

(** coffeescript.rl:57-57 *)
Definition m_coffeescript_comment : rx :=
  alts m_coffeescript_line_comment [m_coffeescript_block_comment].

(** coffeescript.rl:59-68 *)
Definition m_coffeescript_sq_str : rx :=
  cats (Aug [Finish a_enqueue; Finish a_code] (Lit (bytes "'"))) [
    Star (alts (Aug [Leave (mkAction 20502 [Entity (-2)]); Leave a_coffeescript_ccallback] m_newline) [
      m_ws;
      Aug [Finish a_code] (NCls [(9, 10); (12, 13); (32, 32); (39, 39); (92, 92)]);
      cats (Lit (bytes "\")) [Aug [Finish a_code] m_nonnewline]]);
    Aug [Finish a_commit; Finish a_code] (Lit (bytes "'"))].

(** coffeescript.rl:69-78 *)
Definition m_coffeescript_dq_str : rx :=
  cats (Aug [Finish a_enqueue; Finish a_code] (Lit (bytes """"))) [
    Star (alts (Aug [Leave (mkAction 20503 [Entity (-2)]); Leave a_coffeescript_ccallback] m_newline) [
      m_ws;
      Aug [Finish a_code] (NCls [(9, 10); (12, 13); (32, 32); (34, 34); (92, 92)]);
      cats (Lit (bytes "\")) [Aug [Finish a_code] m_nonnewline]]);
    Aug [Finish a_commit; Finish a_code] (Lit (bytes """"))].

(** coffeescript.rl:79-86 *)
Definition m_coffeescript_sq_here_doc : rx :=
  CatFin (cats (Aug [Finish a_code] (Lit (bytes "'''"))) [
    Star (alts (Aug [Leave (mkAction 20504 [Entity (-2)]); Leave a_coffeescript_ccallback] m_newline) [
      m_ws;
      Aug [Finish a_code] (Diff m_nonnewline m_ws)])]) (Aug [Finish a_code] (Lit (bytes "'''"))).

(** coffeescript.rl:87-94 *)
Definition m_coffeescript_dq_here_doc : rx :=
  CatFin (cats (Aug [Finish a_code] (Lit (bytes """"""""))) [
    Star (alts (Aug [Leave (mkAction 20505 [Entity (-2)]); Leave a_coffeescript_ccallback] m_newline) [
      m_ws;
      Aug [Finish a_code] (Diff m_nonnewline m_ws)])]) (Aug [Finish a_code] (Lit (bytes """"""""))).

(** coffeescript.rl:95-96 *)
Definition m_coffeescript_string : rx :=
  Aug [Finish a_code] (alts m_coffeescript_sq_str [
    m_coffeescript_dq_str;
    m_coffeescript_sq_here_doc;
    m_coffeescript_dq_here_doc]).

(** coffeescript.rl:110-118 *)
Definition i_coffeescript_line : instance :=
  Scanner [
    (Aug [Finish a_coffeescript_ccallback; Finish (mkAction 20510 [Asaw "JS_LANG"])] m_coffeescript_js_entry, Some (mkAction 20511 [Call 1]));
    (Aug [All (mkAction 20512 [Entity 0])] m_spaces, Some a_coffeescript_ccallback);
    (m_coffeescript_comment, None);
    (m_coffeescript_string, None);
    (Aug [All (mkAction 20513 [Entity (-1)])] m_newline, Some a_coffeescript_ccallback);
    (Aug [All (mkAction 20514 [Entity 3])] (NotChr r_space), Some a_coffeescript_ccallback)].

(** coffeescript.rl:99-99 *)
Definition m_coffeescript_js_outry : rx :=
  Aug [Finish a_check_blank_outry; Finish a_code] (Lit (bytes "`")).

(** coffeescript.rl:100-108 *)
Definition i_coffeescript_js_line : instance :=
  Scanner [
    (Aug [Finish (mkAction 20506 [PTs; Ret])] m_coffeescript_js_outry, None);
    (Aug [All (mkAction 20507 [Entity 0])] m_spaces, Some a_js_ccallback);
    (m_js_comment, None);
    (m_js_string, None);
    (Aug [All (mkAction 20508 [Entity (-1)])] m_newline, Some a_js_ccallback);
    (Aug [All (mkAction 20509 [Entity 7])] (NotChr r_space), Some a_js_ccallback)].

(** coffeescript.rl:122 *)
Definition a_coffeescript_ecallback : action := mkAction 20002 [Report "COFFEESCRIPT_LANG" ["space"; "comment"; "string"; "any"]].

(** coffeescript.rl:127-127 *)
Definition m_coffeescript_line_comment_entity : rx :=
  cats (Lit (bytes "#")) [Star m_nonnewline].

(** coffeescript.rl:128-128 *)
Definition m_coffeescript_block_comment_entity : rx :=
  CatFin (cats (Lit (bytes "###")) [Star r_any]) (Lit (bytes "###")).

(** coffeescript.rl:129-130 *)
Definition m_coffeescript_comment_entity : rx :=
  alts m_coffeescript_line_comment_entity [m_coffeescript_block_comment_entity].

(** coffeescript.rl:132-137 *)
Definition i_coffeescript_entity : instance :=
  Scanner [
    (Aug [All (mkAction 20515 [Entity 0])] (Plus r_space), Some a_coffeescript_ecallback);
    (Aug [All (mkAction 20516 [Entity 1])] m_coffeescript_comment_entity, Some a_coffeescript_ecallback);
    (NotChr r_space, None)].

Definition the_parser : parser := mkParser [i_coffeescript_line; i_coffeescript_js_line] "COFFEESCRIPT_LANG".
Definition the_entities : parser := mkParser [i_coffeescript_entity] "COFFEESCRIPT_LANG".
