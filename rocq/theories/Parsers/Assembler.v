(** Transcription of /repo/src/parsers/assembler.rl: the line counting machine and the
    entity machine (written by tools/ragel/gen.py). *)
From Coq Require Import ZArith String List.
From Verif Require Import Base RagelSyntax.
From Verif.Parsers Require Import Common.
Import ListNotations.
Open Scope string_scope.
Open Scope Z_scope.
Open Scope list_scope.

(** assembler.rl:33 *)
Definition a_asm_ccallback : action := mkAction 4001 [Switch [(0, Mls); (7, Mcode); ((-2), Minl "ASM_LANG"); ((-1), Mnl "ASM_LANG")]].

(** assembler.rl:49-49 *)
Definition m_asm_line_comment : rx :=
  cats (Aug [Finish a_comment] (alts (Lit (bytes "//")) [Lit (bytes ";"); Lit (bytes "!")])) [
    Star m_nonnewline].

(** assembler.rl:50-57 *)
Definition m_asm_block_comment : rx :=
  CatFin (cats (Aug [Finish a_comment] (Lit (bytes "/*"))) [
    Star (alts (Aug [Leave (mkAction 4501 [Entity (-2)]); Leave a_asm_ccallback] m_newline) [
      m_ws;
      Aug [Finish a_comment] (Diff m_nonnewline m_ws)])]) (Lit (bytes "*/")).

(** assembler.rl:58-58 *)
Definition m_asm_comment : rx :=
  alts m_asm_line_comment [m_asm_block_comment].

(** assembler.rl:60-60 *)
Definition m_asm_string : rx :=
  cats (Aug [Finish a_code] (Lit (bytes """"))) [
    Star (alts (NCls [(10, 10); (12, 13); (34, 34); (92, 92)]) [cats (Lit (bytes "\")) [m_nonnewline]]);
    Lit (bytes """")].

(** assembler.rl:62-68 *)
Definition i_asm_line : instance :=
  Scanner [
    (Aug [All (mkAction 4502 [Entity 0])] m_spaces, Some a_asm_ccallback);
    (m_asm_comment, None);
    (m_asm_string, None);
    (Aug [All (mkAction 4503 [Entity (-1)])] m_newline, Some a_asm_ccallback);
    (Aug [All (mkAction 4504 [Entity 7])] (NotChr r_space), Some a_asm_ccallback)].

(** assembler.rl:72 *)
Definition a_asm_ecallback : action := mkAction 4002 [Report "ASM_LANG" ["space"; "comment"; "string"; "number"; "keyword"; "identifier"; "operator"; "any"]].

(** assembler.rl:76-76 *)
Definition m_asm_line_comment_entity : rx :=
  cats (alts (Lit (bytes "//")) [Lit (bytes ";"); Lit (bytes "!")]) [Star m_nonnewline].

(** assembler.rl:77-77 *)
Definition m_asm_block_comment_entity : rx :=
  CatFin (cats (Lit (bytes "/*")) [Star r_any]) (Lit (bytes "*/")).

(** assembler.rl:78-78 *)
Definition m_asm_comment_entity : rx :=
  alts m_asm_line_comment_entity [m_asm_block_comment_entity].

(** assembler.rl:80-85 *)
Definition i_asm_entity : instance :=
  Scanner [
    (Aug [All (mkAction 4505 [Entity 0])] (Plus r_space), Some a_asm_ecallback);
    (Aug [All (mkAction 4506 [Entity 1])] m_asm_comment_entity, Some a_asm_ecallback);
    (NotChr r_space, None)].

Definition the_parser : parser := mkParser [i_asm_line] "ASM_LANG".
Definition the_entities : parser := mkParser [i_asm_entity] "ASM_LANG".
