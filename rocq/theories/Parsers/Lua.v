(** Transcription of /repo/src/parsers/lua.rl: the line counting machine and the
    entity machine (written by tools/ragel/gen.py). *)
From Coq Require Import ZArith String List.
From Verif Require Import Base RagelSyntax.
From Verif.Parsers Require Import Common.
Import ListNotations.
Open Scope string_scope.
Open Scope Z_scope.
Open Scope list_scope.

(** lua.rl:33 *)
Definition a_lua_ccallback : action := mkAction 58001 [Switch [(0, Mls); (7, Mcode); ((-2), Minl "LUA_LANG"); ((-1), Mnl "LUA_LANG")]].

(** lua.rl:49 *)
Definition a_lua_long_ec_res : action := mkAction 58002 [VarSet 2 0].

(** lua.rl:50 *)
Definition a_lua_long_ec_inc : action := mkAction 58003 [VarAdd 2 1].

(** lua.rl:51 *)
Definition a_lua_long_ec_dec : action := mkAction 58004 [VarAdd 2 (-1)].

(** lua.rl:53-60 *)
Definition m_lua_long_comment : rx :=
  CatFin (cats (Lit (bytes "--")) [
    Aug [Finish a_enqueue; Finish a_comment] (cats (Aug [Enter a_lua_long_ec_res] (Lit (bytes "["))) [
      Aug [All a_lua_long_ec_inc] (Star (Lit (bytes "=")));
      Lit (bytes "[")]);
    Star (alts (Aug [Leave (mkAction 58501 [Entity (-2)]); Leave a_lua_ccallback] m_newline) [
      m_ws;
      Aug [Finish a_comment] (Diff m_nonnewline m_ws)])]) (Aug [Finish a_commit] (cats (Lit (bytes "]")) [
    Aug [All a_lua_long_ec_dec] (Star (Lit (bytes "=")));
    Aug [When (IsZero 2) true] (Lit (bytes "]"))])).

(** lua.rl:61-61 *)
Definition m_lua_line_comment : rx :=
  cats (Aug [Finish a_comment] (Lit (bytes "--"))) [Star m_nonnewline].

(** lua.rl:62-62 *)
Definition m_lua_comment : rx :=
  alts m_lua_long_comment [m_lua_line_comment].

(** lua.rl:72-81 *)
Definition m_lua_sq_str : rx :=
  cats (Aug [Finish a_code] (Lit (bytes "'"))) [
    Star (alts (Aug [Leave (mkAction 58505 [Entity (-2)]); Leave a_lua_ccallback] m_newline) [
      m_ws;
      Aug [Finish a_code] (NCls [(9, 10); (12, 13); (32, 32); (39, 39); (92, 92)]);
      cats (Lit (bytes "\")) [Aug [Finish a_code] m_nonnewline]]);
    Lit (bytes "'")].

(** lua.rl:82-91 *)
Definition m_lua_dq_str : rx :=
  cats (Aug [Finish a_code] (Lit (bytes """"))) [
    Star (alts (Aug [Leave (mkAction 58506 [Entity (-2)]); Leave a_lua_ccallback] m_newline) [
      m_ws;
      Aug [Finish a_code] (NCls [(9, 10); (12, 13); (32, 32); (34, 34); (92, 92)]);
      cats (Lit (bytes "\")) [Aug [Finish a_code] m_nonnewline]]);
    Lit (bytes """")].

(** lua.rl:64-71 *)
Definition m_lua_long_string : rx :=
  CatFin (cats (Aug [Finish a_enqueue; Finish a_code] (cats (Aug [Enter a_lua_long_ec_res] (Lit (bytes "["))) [
      Aug [All a_lua_long_ec_inc] (Star (Lit (bytes "=")));
      Lit (bytes "[")])) [
    Star (alts (Aug [Leave (mkAction 58503 [Entity (-2)]); Leave a_lua_ccallback] m_newline) [
      m_ws;
      Aug [Finish a_code] (Diff m_nonnewline m_ws)])]) (Aug [Finish a_commit] (cats (Lit (bytes "]")) [
    Aug [All a_lua_long_ec_dec] (Star (Lit (bytes "=")));
    Aug [When (IsZero 2) true] (Lit (bytes "]"))])).

(** lua.rl:92-92 *)
Definition m_lua_string : rx :=
  alts m_lua_sq_str [m_lua_dq_str; m_lua_long_string].

(** lua.rl:94-100 *)
Definition i_lua_line : instance :=
  Scanner [
    (Aug [All (mkAction 58507 [Entity 0])] m_spaces, Some a_lua_ccallback);
    (m_lua_comment, None);
    (m_lua_string, None);
    (Aug [All (mkAction 58508 [Entity (-1)])] m_newline, Some a_lua_ccallback);
    (Aug [All (mkAction 58509 [Entity 7])] (NotChr r_space), Some a_lua_ccallback)].

(** lua.rl:104 *)
Definition a_lua_ecallback : action := mkAction 58005 [Report "LUA_LANG" ["space"; "comment"; "string"; "number"; "keyword"; "identifier"; "operator"; "any"]].

(** lua.rl:108-110 *)
Definition m_lua_block_comment_entity : rx :=
  CatFin (cats (Aug [Enter a_lua_long_ec_res] (Lit (bytes "--["))) [
    Aug [All a_lua_long_ec_inc] (Star (Lit (bytes "=")));
    Lit (bytes "[");
    Star r_any]) (cats (Lit (bytes "]")) [
    Aug [All a_lua_long_ec_dec] (Star (Lit (bytes "=")));
    Aug [When (IsZero 2) true] (Lit (bytes "]"))]).

(** lua.rl:111-111 *)
Definition m_lua_line_comment_entity : rx :=
  cats (Lit (bytes "--")) [Star m_nonnewline].

(** lua.rl:112-112 *)
Definition m_lua_comment_entity : rx :=
  alts m_lua_block_comment_entity [m_lua_line_comment_entity].

(** lua.rl:114-114 *)
Definition m_lua_string_entity : rx :=
  alts m_sq_str_with_escapes [m_dq_str_with_escapes].

(** lua.rl:116-116 *)
Definition m_lua_integer : rx :=
  cats (Opt (Lit (bytes "-"))) [alts m_dec_num [m_hex_num]].

(** lua.rl:117-117 *)
Definition m_lua_number_entity : rx :=
  alts m_float [m_lua_integer].

(** lua.rl:124-124 *)
Definition m_lua_identifier_entity : rx :=
  cats (alts r_alpha [Lit (bytes "_")]) [Star r_alnum].

(** lua.rl:119-122 *)
Definition m_lua_keyword_entity : rx :=
  alts (Lit (bytes "and")) [
    Lit (bytes "break");
    Lit (bytes "do");
    Lit (bytes "else");
    Lit (bytes "elseif");
    Lit (bytes "end");
    Lit (bytes "false");
    Lit (bytes "for");
    Lit (bytes "function");
    Lit (bytes "if");
    Lit (bytes "in");
    Lit (bytes "local");
    Lit (bytes "nil");
    Lit (bytes "not");
    Lit (bytes "or");
    Lit (bytes "repeat");
    Lit (bytes "return");
    Lit (bytes "then");
    Lit (bytes "true");
    Lit (bytes "until");
    Lit (bytes "while")].

(** lua.rl:126-126 *)
Definition m_lua_operator_entity : rx :=
  alts (Lit (bytes "~=")) [
    Cls [(35, 35); (37, 37); (40, 47); (58, 62); (91, 91); (93, 94); (123, 123); (125, 125)]].

(** lua.rl:128-137 *)
Definition i_lua_entity : instance :=
  Scanner [
    (Aug [All (mkAction 58511 [Entity 0])] (Plus r_space), Some a_lua_ecallback);
    (Aug [All (mkAction 58512 [Entity 1])] m_lua_comment_entity, Some a_lua_ecallback);
    (Aug [All (mkAction 58513 [Entity 2])] m_lua_string_entity, Some a_lua_ecallback);
    (Aug [All (mkAction 58514 [Entity 3])] m_lua_number_entity, Some a_lua_ecallback);
    (Aug [All (mkAction 58515 [Entity 5])] m_lua_identifier_entity, Some a_lua_ecallback);
    (Aug [All (mkAction 58516 [Entity 4])] m_lua_keyword_entity, Some a_lua_ecallback);
    (Aug [All (mkAction 58517 [Entity 6])] m_lua_operator_entity, Some a_lua_ecallback);
    (Aug [All (mkAction 58518 [Entity 7])] (NotChr r_space), Some a_lua_ecallback)].

Definition the_parser : parser := mkParser [i_lua_line] "LUA_LANG".
Definition the_entities : parser := mkParser [i_lua_entity] "LUA_LANG".
