(** Transcription of /repo/src/parsers/pike.rl: the line counting machine and the
    entity machine (written by tools/ragel/gen.py). *)
From Coq Require Import ZArith String List.
From Verif Require Import Base RagelSyntax.
From Verif.Parsers Require Import Common.
Import ListNotations.
Open Scope string_scope.
Open Scope Z_scope.
Open Scope list_scope.

(** pike.rl:31 *)
Definition a_pike_ccallback : action := mkAction 80001 [Switch [(0, Mls); (3, Mcode); ((-2), Minl "PIKE_LANG"); ((-1), Mnl "PIKE_LANG")]].

(** pike.rl:47-47 *)
Definition m_pike_line_comment : rx :=
  cats (Aug [Finish a_comment] (Lit (bytes "//"))) [Star m_nonnewline].

(** pike.rl:48-55 *)
Definition m_pike_block_comment : rx :=
  CatFin (cats (Aug [Finish a_comment] (Lit (bytes "/*"))) [
    Star (alts (Aug [Leave (mkAction 80501 [Entity (-2)]); Leave a_pike_ccallback] m_newline) [
      m_ws;
      Aug [Finish a_comment] (Diff m_nonnewline m_ws)])]) (Lit (bytes "*/")).

(** pike.rl:56-56 *)
Definition m_pike_comment : rx :=
  alts m_pike_line_comment [m_pike_block_comment].

(** pike.rl:58-58 *)
Definition m_pike_sq_str : rx :=
  cats (Aug [Finish a_code] (Lit (bytes "'"))) [
    Star (alts (NCls [(10, 10); (12, 13); (39, 39); (92, 92)]) [cats (Lit (bytes "\")) [m_nonnewline]]);
    Lit (bytes "'")].

(** pike.rl:59-59 *)
Definition m_pike_dq_str : rx :=
  cats (Aug [Finish a_code] (Lit (bytes """"))) [
    Star (alts (NCls [(10, 10); (12, 13); (34, 34); (92, 92)]) [cats (Lit (bytes "\")) [m_nonnewline]]);
    Lit (bytes """")].

(** pike.rl:60-60 *)
Definition m_pike_string : rx :=
  alts m_pike_sq_str [m_pike_dq_str].

(** pike.rl:62-68 *)
Definition i_pike_line : instance :=
  Scanner [
    (Aug [All (mkAction 80502 [Entity 0])] m_spaces, Some a_pike_ccallback);
    (m_pike_comment, None);
    (m_pike_string, None);
    (Aug [All (mkAction 80503 [Entity (-1)])] m_newline, Some a_pike_ccallback);
    (Aug [All (mkAction 80504 [Entity 3])] (NotChr r_space), Some a_pike_ccallback)].

(** pike.rl:72 *)
Definition a_pike_ecallback : action := mkAction 80002 [Report "PIKE_LANG" ["space"; "comment"; "string"; "any"]].

(** pike.rl:76-76 *)
Definition m_pike_line_comment_entity : rx :=
  cats (Lit (bytes "//")) [Star m_nonnewline].

(** pike.rl:77-77 *)
Definition m_pike_block_comment_entity : rx :=
  CatFin (cats (Lit (bytes "/*")) [Star r_any]) (Lit (bytes "*/")).

(** pike.rl:78-78 *)
Definition m_pike_comment_entity : rx :=
  alts m_pike_line_comment_entity [m_pike_block_comment_entity].

(** pike.rl:80-85 *)
Definition i_pike_entity : instance :=
  Scanner [
    (Aug [All (mkAction 80505 [Entity 0])] (Plus r_space), Some a_pike_ecallback);
    (Aug [All (mkAction 80506 [Entity 1])] m_pike_comment_entity, Some a_pike_ecallback);
    (NotChr r_space, None)].

Definition the_parser : parser := mkParser [i_pike_line] "PIKE_LANG".
Definition the_entities : parser := mkParser [i_pike_entity] "PIKE_LANG".
