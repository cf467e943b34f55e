(** Transcription of /repo/src/parsers/chaiscript.rl: the line counting machine and the
    entity machine (written by tools/ragel/gen.py). *)
From Coq Require Import ZArith String List.
From Verif Require Import Base RagelSyntax.
From Verif.Parsers Require Import Common.
Import ListNotations.
Open Scope string_scope.
Open Scope Z_scope.
Open Scope list_scope.

(** chaiscript.rl:34 *)
Definition a_chai_ccallback : action := mkAction 15001 [Switch [(0, Mls); (7, Mcode); ((-2), Minl "CHAI_LANG"); ((-1), Mnl "CHAI_LANG")]].

(** chaiscript.rl:50-50 *)
Definition m_chai_line_comment : rx :=
  cats (Aug [Finish a_comment] (Lit (bytes "//"))) [Star m_nonnewline].

(** chaiscript.rl:51-58 *)
Definition m_chai_block_comment : rx :=
  CatFin (cats (Aug [Finish a_comment] (Lit (bytes "/*"))) [
    Star (alts (Aug [Leave (mkAction 15501 [Entity (-2)]); Leave a_chai_ccallback] m_newline) [
      m_ws;
      Aug [Finish a_comment] (Diff m_nonnewline m_ws)])]) (Lit (bytes "*/")).

(** chaiscript.rl:59-59 *)
Definition m_chai_comment : rx :=
  alts m_chai_line_comment [m_chai_block_comment].

(** chaiscript.rl:63-72 *)
Definition m_chai_sq_str : rx :=
  cats (Aug [Finish a_code] (Lit (bytes "'"))) [
    Star (alts (Aug [Leave (mkAction 15502 [Entity (-2)]); Leave a_chai_ccallback] m_escaped_newline) [
      m_ws;
      Aug [Finish a_code] (NCls [(9, 9); (32, 32); (39, 39); (92, 92)]);
      cats (Lit (bytes "\")) [Aug [Finish a_code] m_nonnewline]]);
    Lit (bytes "'")].

(** chaiscript.rl:73-82 *)
Definition m_chai_dq_str : rx :=
  cats (Aug [Finish a_code] (Lit (bytes """"))) [
    Star (alts (Aug [Leave (mkAction 15503 [Entity (-2)]); Leave a_chai_ccallback] m_escaped_newline) [
      m_ws;
      Aug [Finish a_code] (NCls [(9, 9); (32, 32); (34, 34); (92, 92)]);
      cats (Lit (bytes "\")) [Aug [Finish a_code] m_nonnewline]]);
    Lit (bytes """")].

(** chaiscript.rl:83-83 *)
Definition m_chai_regex_str : rx :=
  cats (Lit (bytes "/")) [
    NCls [(42, 42); (47, 47)];
    Star (alts (NCls [(10, 10); (12, 13); (47, 47); (92, 92)]) [cats (Lit (bytes "\")) [m_nonnewline]]);
    Aug [Finish a_code] (Lit (bytes "/"))].

(** chaiscript.rl:84-84 *)
Definition m_chai_string : rx :=
  alts m_chai_sq_str [m_chai_dq_str; m_chai_regex_str].

(** chaiscript.rl:86-92 *)
Definition i_chai_line : instance :=
  Scanner [
    (Aug [All (mkAction 15504 [Entity 0])] m_spaces, Some a_chai_ccallback);
    (m_chai_comment, None);
    (m_chai_string, None);
    (Aug [All (mkAction 15505 [Entity (-1)])] m_newline, Some a_chai_ccallback);
    (Aug [All (mkAction 15506 [Entity 7])] (NotChr r_space), Some a_chai_ccallback)].

(** chaiscript.rl:96 *)
Definition a_chai_ecallback : action := mkAction 15002 [Report "CHAI_LANG" ["space"; "comment"; "string"; "number"; "keyword"; "identifier"; "operator"; "any"]].

(** chaiscript.rl:100-100 *)
Definition m_chai_line_comment_entity : rx :=
  cats (Lit (bytes "//")) [Star m_nonnewline].

(** chaiscript.rl:101-101 *)
Definition m_chai_block_comment_entity : rx :=
  CatFin (cats (Lit (bytes "/*")) [Star r_any]) (Lit (bytes "*/")).

(** chaiscript.rl:102-102 *)
Definition m_chai_comment_entity : rx :=
  alts m_chai_line_comment_entity [m_chai_block_comment_entity].

(** chaiscript.rl:104-109 *)
Definition i_chai_entity : instance :=
  Scanner [
    (Aug [All (mkAction 15507 [Entity 0])] (Plus r_space), Some a_chai_ecallback);
    (Aug [All (mkAction 15508 [Entity 1])] m_chai_comment_entity, Some a_chai_ecallback);
    (NotChr r_space, None)].

Definition the_parser : parser := mkParser [i_chai_line] "CHAI_LANG".
Definition the_entities : parser := mkParser [i_chai_entity] "CHAI_LANG".
