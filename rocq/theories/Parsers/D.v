(** Transcription of /repo/src/parsers/d.rl: the line counting machine and the
    entity machine (written by tools/ragel/gen.py). *)
From Coq Require Import ZArith String List.
From Verif Require Import Base RagelSyntax.
From Verif.Parsers Require Import Common.
Import ListNotations.
Open Scope string_scope.
Open Scope Z_scope.
Open Scope list_scope.

(** d.rl:31 *)
Definition a_d_ccallback : action := mkAction 25001 [Switch [(0, Mls); (3, Mcode); ((-2), Minl "D_LANG"); ((-1), Mnl "D_LANG")]].

(** d.rl:51-58 *)
Definition m_d_line_comment : rx :=
  cats (Aug [Finish a_comment] (Lit (bytes "//"))) [
    Star (alts (Aug [Leave (mkAction 25501 [Entity (-2)]); Leave a_d_ccallback] m_escaped_newline) [
      m_ws;
      Aug [Finish a_comment] (Diff m_nonnewline m_ws)])].

(** d.rl:59-66 *)
Definition m_d_block_comment : rx :=
  CatFin (cats (Aug [Finish a_comment] (Lit (bytes "/*"))) [
    Star (alts (Aug [Leave (mkAction 25502 [Entity (-2)]); Leave a_d_ccallback] m_newline) [
      m_ws;
      Aug [Finish a_comment] (Diff m_nonnewline m_ws)])]) (Lit (bytes "*/")).

(** d.rl:47 *)
Definition a_d_comment_nc_res : action := mkAction 25002 [VarSet 0 0].

(** d.rl:48 *)
Definition a_d_comment_nc_inc : action := mkAction 25003 [VarAdd 0 1].

(** d.rl:49 *)
Definition a_d_comment_nc_dec : action := mkAction 25004 [VarAdd 0 (-1)].

(** d.rl:67-78 *)
Definition m_d_nested_comment : rx :=
  CatFin (cats (Aug [Enter a_d_comment_nc_res; Finish a_comment] (Lit (bytes "/+"))) [
    Star (alts (Aug [Leave (mkAction 25503 [Entity (-2)]); Leave a_d_ccallback] m_newline) [
      m_ws;
      Aug [Finish a_d_comment_nc_inc; Finish a_comment] (Lit (bytes "/+"));
      Aug [Finish a_d_comment_nc_dec; Finish a_comment] (Lit (bytes "+/"));
      Aug [Finish a_comment] (NotChr r_space)])]) (Aug [Finish a_comment] (Aug [When (IsZero 0) true] (Lit (bytes "+/")))).

(** d.rl:79-79 *)
Definition m_d_comment : rx :=
  alts m_d_line_comment [m_d_block_comment; m_d_nested_comment].

(** d.rl:81-90 *)
Definition m_d_sq_str : rx :=
  cats (Aug [Finish a_code] (Lit (bytes "'"))) [
    Star (alts (Aug [Leave (mkAction 25505 [Entity (-2)]); Leave a_d_ccallback] m_escaped_newline) [
      m_ws;
      Aug [Finish a_code] (NCls [(9, 9); (32, 32); (39, 39); (92, 92)]);
      cats (Lit (bytes "\")) [Aug [Finish a_code] m_nonnewline]]);
    Lit (bytes "'")].

(** d.rl:91-100 *)
Definition m_d_dq_str : rx :=
  cats (Aug [Finish a_code] (Lit (bytes """"))) [
    Star (alts (Aug [Leave (mkAction 25506 [Entity (-2)]); Leave a_d_ccallback] m_escaped_newline) [
      m_ws;
      Aug [Finish a_code] (NCls [(9, 9); (32, 32); (34, 34); (92, 92)]);
      cats (Lit (bytes "\")) [Aug [Finish a_code] m_nonnewline]]);
    Lit (bytes """")].

(** d.rl:101-110 *)
Definition m_d_bt_str : rx :=
  cats (Aug [Finish a_code] (Lit (bytes "`"))) [
    Star (alts (Aug [Leave (mkAction 25507 [Entity (-2)]); Leave a_d_ccallback] m_escaped_newline) [
      m_ws;
      Aug [Finish a_code] (NCls [(9, 9); (32, 32); (92, 92); (96, 96)]);
      cats (Lit (bytes "\")) [Aug [Finish a_code] m_nonnewline]]);
    Lit (bytes "`")].

(** d.rl:111-111 *)
Definition m_d_string : rx :=
  alts m_d_sq_str [m_d_dq_str; m_d_bt_str].

(** d.rl:113-119 *)
Definition i_d_line : instance :=
  Scanner [
    (Aug [All (mkAction 25508 [Entity 0])] m_spaces, Some a_d_ccallback);
    (m_d_comment, None);
    (m_d_string, None);
    (Aug [All (mkAction 25509 [Entity (-1)])] m_newline, Some a_d_ccallback);
    (Aug [All (mkAction 25510 [Entity 3])] (NotChr r_space), Some a_d_ccallback)].

(** d.rl:123 *)
Definition a_d_ecallback : action := mkAction 25005 [Report "D_LANG" ["space"; "comment"; "string"; "any"]].

(** d.rl:127-127 *)
Definition m_d_line_comment_entity : rx :=
  cats (Lit (bytes "//")) [Star (alts m_escaped_newline [m_nonnewline])].

(** d.rl:128-128 *)
Definition m_d_block_comment_entity : rx :=
  CatFin (cats (Lit (bytes "/*")) [Star r_any]) (Lit (bytes "*/")).

(** d.rl:129-135 *)
Definition m_d_nested_comment_entity : rx :=
  CatFin (cats (Aug [Enter a_d_comment_nc_res] (Lit (bytes "/+"))) [
    Star (alts (Aug [Finish a_d_comment_nc_inc] (Lit (bytes "/+"))) [
      Aug [Finish a_d_comment_nc_dec] (Lit (bytes "+/"));
      r_any])]) (Aug [When (IsZero 0) true] (Lit (bytes "+/"))).

(** d.rl:136-137 *)
Definition m_d_comment_entity : rx :=
  alts m_d_line_comment_entity [m_d_block_comment_entity; m_d_nested_comment_entity].

(** d.rl:139-144 *)
Definition i_d_entity : instance :=
  Scanner [
    (Aug [All (mkAction 25512 [Entity 0])] (Plus r_space), Some a_d_ecallback);
    (Aug [All (mkAction 25513 [Entity 1])] m_d_comment_entity, Some a_d_ecallback);
    (NotChr r_space, None)].

Definition the_parser : parser := mkParser [i_d_line] "D_LANG".
Definition the_entities : parser := mkParser [i_d_entity] "D_LANG".
