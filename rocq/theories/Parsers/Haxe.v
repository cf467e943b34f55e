(** Transcription of /repo/src/parsers/haxe.rl: the line counting machine and the
    entity machine (written by tools/ragel/gen.py). *)
From Coq Require Import ZArith String List.
From Verif Require Import Base RagelSyntax.
From Verif.Parsers Require Import Common.
Import ListNotations.
Open Scope string_scope.
Open Scope Z_scope.
Open Scope list_scope.

(** haxe.rl:31 *)
Definition a_hx_ccallback : action := mkAction 45001 [Switch [(0, Mls); (3, Mcode); ((-2), Minl "HX_LANG"); ((-1), Mnl "HX_LANG")]].

(** haxe.rl:47-54 *)
Definition m_hx_line_comment : rx :=
  cats (Aug [Finish a_comment] (Lit (bytes "//"))) [
    Star (alts (Aug [Leave (mkAction 45501 [Entity (-2)]); Leave a_hx_ccallback] m_escaped_newline) [
      m_ws;
      Aug [Finish a_comment] (Diff m_nonnewline m_ws)])].

(** haxe.rl:56-63 *)
Definition m_hx_block_comment : rx :=
  CatFin (cats (Aug [Finish a_comment] (Lit (bytes "/*"))) [
    Star (alts (Aug [Leave (mkAction 45502 [Entity (-2)]); Leave a_hx_ccallback] m_newline) [
      m_ws;
      Aug [Finish a_comment] (Diff m_nonnewline m_ws)])]) (Lit (bytes "*/")).

(** haxe.rl:64-64 *)
Definition m_hx_comment : rx :=
  alts m_hx_line_comment [m_hx_block_comment].

(** haxe.rl:66-66 *)
Definition m_hx_sq_str : rx :=
  cats (Aug [Finish a_code] (Lit (bytes "'"))) [
    Star (alts (NCls [(10, 10); (12, 13); (39, 39); (92, 92)]) [cats (Lit (bytes "\")) [m_nonnewline]]);
    Lit (bytes "'")].

(** haxe.rl:67-67 *)
Definition m_hx_dq_str : rx :=
  cats (Aug [Finish a_code] (Lit (bytes """"))) [
    Star (alts (NCls [(10, 10); (12, 13); (34, 34); (92, 92)]) [cats (Lit (bytes "\")) [m_nonnewline]]);
    Lit (bytes """")].

(** haxe.rl:68-68 *)
Definition m_hx_string : rx :=
  alts m_hx_sq_str [m_hx_dq_str].

(** haxe.rl:70-76 *)
Definition i_hx_line : instance :=
  Scanner [
    (Aug [All (mkAction 45503 [Entity 0])] m_spaces, Some a_hx_ccallback);
    (m_hx_comment, None);
    (m_hx_string, None);
    (Aug [All (mkAction 45504 [Entity (-1)])] m_newline, Some a_hx_ccallback);
    (Aug [All (mkAction 45505 [Entity 3])] (NotChr r_space), Some a_hx_ccallback)].

(** haxe.rl:80 *)
Definition a_hx_ecallback : action := mkAction 45002 [Report "HX_LANG" ["space"; "comment"; "string"; "any"]].

(** haxe.rl:83-83 *)
Definition m_hx_line_comment_entity : rx :=
  cats (Lit (bytes "//")) [Star m_nonnewline].

(** haxe.rl:84-84 *)
Definition m_hx_block_comment_entity : rx :=
  CatFin (cats (Lit (bytes "/*")) [Star r_any]) (Lit (bytes "*/")).

(** haxe.rl:85-85 *)
Definition m_hx_comment_entity : rx :=
  alts m_hx_line_comment_entity [m_hx_block_comment_entity].

(** haxe.rl:87-92 *)
Definition i_hx_entity : instance :=
  Scanner [
    (Aug [All (mkAction 45506 [Entity 0])] (Plus r_space), Some a_hx_ecallback);
    (Aug [All (mkAction 45507 [Entity 1])] m_hx_comment_entity, Some a_hx_ecallback);
    (NotChr r_space, None)].

Definition the_parser : parser := mkParser [i_hx_line] "HX_LANG".
Definition the_entities : parser := mkParser [i_hx_entity] "HX_LANG".
