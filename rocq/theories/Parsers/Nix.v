(** Transcription of /repo/src/parsers/nix.rl: the line counting machine and the
    entity machine (written by tools/ragel/gen.py). *)
From Coq Require Import ZArith String List.
From Verif Require Import Base RagelSyntax.
From Verif.Parsers Require Import Common Shell.
Import ListNotations.
Open Scope string_scope.
Open Scope Z_scope.
Open Scope list_scope.

(** nix.rl:32 *)
Definition a_nix_ccallback : action := mkAction 69001 [Switch [(0, Mls); (2, Mcode); ((-2), Minl "NIX_LANG"); ((-1), Mnl "NIX_LANG"); ((-3), Mblank "NIX_LANG")]].

(** nix.rl:64-64 *)
Definition m_nix_dq_shell_entry : rx :=
  Aug [Finish a_code] (Lit (bytes """")).

(** nix.rl:77-77 *)
Definition m_nix_dsq_shell_entry : rx :=
  Aug [Finish a_code] (Lit (bytes "''")).

(** nix.rl:51-51 *)
Definition m_nix_line_comment : rx :=
  cats (Aug [Finish a_comment] (Lit (bytes "#"))) [Star m_nonnewline].

(** nix.rl:53-60 *)
Definition m_nix_block_comment : rx :=
  CatFin (cats (Aug [Finish a_comment] (Lit (bytes "/*"))) [
    Star (alts (Aug [Leave (mkAction 69501 [Entity (-2)]); Leave a_nix_ccallback] m_newline) [
      m_ws;
      Aug [Finish a_comment] (Diff m_nonnewline m_ws)])]) (Lit (bytes "*/")).

(** nix.rl:62-62 *)
Definition m_nix_comment : rx :=
  alts m_nix_line_comment [m_nix_block_comment].

(** nix.rl:90-100 *)
Definition i_nix_line : instance :=
  Scanner [
    (Aug [Finish (mkAction 69510 [Entity (-3)]); Finish a_nix_ccallback; Finish (mkAction 69511 [Asaw "SHELL_LANG"])] m_nix_dq_shell_entry, Some (mkAction 69512 [Call 1]));
    (Aug [Finish (mkAction 69513 [Entity (-3)]); Finish a_nix_ccallback; Finish (mkAction 69514 [Asaw "SHELL_LANG"])] m_nix_dsq_shell_entry, Some (mkAction 69515 [Call 2]));
    (Aug [All (mkAction 69516 [Entity 0])] m_spaces, Some a_nix_ccallback);
    (m_nix_comment, None);
    (Aug [All (mkAction 69517 [Entity (-1)])] m_newline, Some a_nix_ccallback);
    (Aug [All (mkAction 69518 [Entity 2])] (NotChr r_space), Some a_nix_ccallback)].

(** nix.rl:65-65 *)
Definition m_nix_dq_shell_outry : rx :=
  Aug [Finish a_check_blank_outry; Finish a_code] (Lit (bytes """")).

(** nix.rl:66-75 *)
Definition i_nix_dq_shell_line : instance :=
  Scanner [
    (Aug [Finish (mkAction 69502 [PTs; Ret])] m_nix_dq_shell_outry, None);
    (Aug [All (mkAction 69503 [Entity 0])] m_spaces, Some a_shell_ccallback);
    (m_shell_comment, None);
    (m_shell_string, None);
    (Aug [All (mkAction 69504 [Entity (-1)])] m_newline, Some a_shell_ccallback);
    (Aug [All (mkAction 69505 [Entity 3])] (NotChr r_space), Some a_shell_ccallback)].

(** nix.rl:78-78 *)
Definition m_nix_dsq_shell_outry : rx :=
  Aug [Finish a_check_blank_outry; Finish a_code] (Lit (bytes "''")).

(** nix.rl:79-88 *)
Definition i_nix_dsq_shell_line : instance :=
  Scanner [
    (Aug [Finish (mkAction 69506 [PTs; Ret])] m_nix_dsq_shell_outry, None);
    (Aug [All (mkAction 69507 [Entity 0])] m_spaces, Some a_shell_ccallback);
    (m_shell_comment, None);
    (m_shell_string, None);
    (Aug [All (mkAction 69508 [Entity (-1)])] m_newline, Some a_shell_ccallback);
    (Aug [All (mkAction 69509 [Entity 3])] (NotChr r_space), Some a_shell_ccallback)].

(** nix.rl:113-113 *)
Definition m_nix_dq_shell_entry_entity : rx :=
  Lit (bytes """").

(** nix.rl:125-125 *)
Definition m_nix_dsq_shell_entry_entity : rx :=
  Lit (bytes "''").

(** nix.rl:104 *)
Definition a_nix_ecallback : action := mkAction 69002 [Report "NIX_LANG" ["space"; "comment"; "any"]].

(** nix.rl:108-108 *)
Definition m_nix_line_comment_entity : rx :=
  cats (Lit (bytes "#")) [Star m_nonnewline].

(** nix.rl:109-109 *)
Definition m_nix_block_comment_entity : rx :=
  CatFin (cats (Lit (bytes "/*")) [Star r_any]) (Lit (bytes "*/")).

(** nix.rl:110-110 *)
Definition m_nix_comment_entity : rx :=
  alts m_nix_line_comment_entity [m_nix_block_comment_entity].

(** nix.rl:137-144 *)
Definition i_nix_entity : instance :=
  Scanner [
    (m_nix_dq_shell_entry_entity, Some (mkAction 69525 [Call 1]));
    (m_nix_dsq_shell_entry_entity, Some (mkAction 69526 [Call 2]));
    (Aug [All (mkAction 69527 [Entity 0])] (Plus r_space), Some a_nix_ecallback);
    (Aug [All (mkAction 69528 [Entity 1])] m_nix_comment_entity, Some a_nix_ecallback);
    (NotChr r_space, None)].

(** nix.rl:114-114 *)
Definition m_nix_dq_shell_outry_entity : rx :=
  Lit (bytes """").

(** nix.rl:115-123 *)
Definition i_nix_dq_shell_entity : instance :=
  Scanner [
    (Aug [Finish (mkAction 69519 [Ret])] m_nix_dq_shell_outry_entity, None);
    (Aug [All (mkAction 69520 [Entity 0])] (Plus r_space), Some a_shell_ecallback);
    (Aug [All (mkAction 69521 [Entity 1])] m_shell_comment_entity, Some a_shell_ecallback);
    (NotChr r_space, None)].

(** nix.rl:126-126 *)
Definition m_nix_dsq_shell_outry_entity : rx :=
  Lit (bytes "''").

(** nix.rl:127-135 *)
Definition i_nix_dsq_shell_entity : instance :=
  Scanner [
    (Aug [Finish (mkAction 69522 [Ret])] m_nix_dsq_shell_outry_entity, None);
    (Aug [All (mkAction 69523 [Entity 0])] (Plus r_space), Some a_shell_ecallback);
    (Aug [All (mkAction 69524 [Entity 1])] m_shell_comment_entity, Some a_shell_ecallback);
    (NotChr r_space, None)].

Definition the_parser : parser := mkParser [i_nix_line; i_nix_dq_shell_line; i_nix_dsq_shell_line] "NIX_LANG".
Definition the_entities : parser := mkParser [i_nix_entity; i_nix_dq_shell_entity; i_nix_dsq_shell_entity] "NIX_LANG".
