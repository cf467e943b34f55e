(** Transcription of /repo/src/parsers/unrealscript.rl: the line counting machine and the
    entity machine (written by tools/ragel/gen.py). *)
From Coq Require Import ZArith String List.
From Verif Require Import Base RagelSyntax.
From Verif.Parsers Require Import Common.
Import ListNotations.
Open Scope string_scope.
Open Scope Z_scope.
Open Scope list_scope.

(** unrealscript.rl:31 *)
Definition a_unrealscript_ccallback : action := mkAction 104001 [Switch [(0, Mls); (3, Mcode); ((-2), Minl "UNREALSCRIPT_LANG"); ((-1), Mnl "UNREALSCRIPT_LANG")]].

(** unrealscript.rl:47-47 *)
Definition m_unrealscript_line_comment : rx :=
  cats (Aug [Finish a_comment] (Lit (bytes "//"))) [Star m_nonnewline].

(** unrealscript.rl:48-55 *)
Definition m_unrealscript_block_comment : rx :=
  CatFin (cats (Aug [Finish a_comment] (Lit (bytes "/*"))) [
    Star (alts (Aug [Leave (mkAction 104501 [Entity (-2)]); Leave a_unrealscript_ccallback] m_newline) [
      m_ws;
      Aug [Finish a_comment] (Diff m_nonnewline m_ws)])]) (Lit (bytes "*/")).

(** unrealscript.rl:56-56 *)
Definition m_unrealscript_comment : rx :=
  alts m_unrealscript_line_comment [m_unrealscript_block_comment].

(** unrealscript.rl:58-67 *)
Definition m_unrealscript_sq_str : rx :=
  cats (Aug [Finish a_code] (Lit (bytes "'"))) [
    Star (alts (Aug [Leave (mkAction 104502 [Entity (-2)]); Leave a_unrealscript_ccallback] m_escaped_newline) [
      m_ws;
      Aug [Finish a_code] (NCls [(9, 9); (32, 32); (39, 39); (92, 92)]);
      cats (Lit (bytes "\")) [Aug [Finish a_code] m_nonnewline]]);
    Lit (bytes "'")].

(** unrealscript.rl:68-77 *)
Definition m_unrealscript_dq_str : rx :=
  cats (Aug [Finish a_code] (Lit (bytes """"))) [
    Star (alts (Aug [Leave (mkAction 104503 [Entity (-2)]); Leave a_unrealscript_ccallback] m_escaped_newline) [
      m_ws;
      Aug [Finish a_code] (NCls [(9, 9); (32, 32); (34, 34); (92, 92)]);
      cats (Lit (bytes "\")) [Aug [Finish a_code] m_nonnewline]]);
    Lit (bytes """")].

(** unrealscript.rl:78-78 *)
Definition m_unrealscript_string : rx :=
  alts m_unrealscript_sq_str [m_unrealscript_dq_str].

(** unrealscript.rl:80-86 *)
Definition i_unrealscript_line : instance :=
  Scanner [
    (Aug [All (mkAction 104504 [Entity 0])] m_spaces, Some a_unrealscript_ccallback);
    (m_unrealscript_comment, None);
    (m_unrealscript_string, None);
    (Aug [All (mkAction 104505 [Entity (-1)])] m_newline, Some a_unrealscript_ccallback);
    (Aug [All (mkAction 104506 [Entity 3])] (NotChr r_space), Some a_unrealscript_ccallback)].

(** unrealscript.rl:90 *)
Definition a_unrealscript_ecallback : action := mkAction 104002 [Report "UNREALSCRIPT_LANG" ["space"; "comment"; "string"; "any"]].

(** unrealscript.rl:94-94 *)
Definition m_unrealscript_line_comment_entity : rx :=
  cats (Lit (bytes "//")) [Star m_nonnewline].

(** unrealscript.rl:95-95 *)
Definition m_unrealscript_block_comment_entity : rx :=
  CatFin (cats (Lit (bytes "/*")) [Star r_any]) (Lit (bytes "*/")).

(** unrealscript.rl:96-96 *)
Definition m_unrealscript_comment_entity : rx :=
  alts m_unrealscript_line_comment_entity [m_unrealscript_block_comment_entity].

(** unrealscript.rl:98-103 *)
Definition i_unrealscript_entity : instance :=
  Scanner [
    (Aug [All (mkAction 104507 [Entity 0])] (Plus r_space), Some a_unrealscript_ecallback);
    (Aug [All (mkAction 104508 [Entity 1])] m_unrealscript_comment_entity, Some a_unrealscript_ecallback);
    (NotChr r_space, None)].

Definition the_parser : parser := mkParser [i_unrealscript_line] "UNREALSCRIPT_LANG".
Definition the_entities : parser := mkParser [i_unrealscript_entity] "UNREALSCRIPT_LANG".
