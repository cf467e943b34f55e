(** Transcription of /repo/src/parsers/shell.rl: the line counting machine and the
    entity machine (written by tools/ragel/gen.py). *)
From Coq Require Import ZArith String List.
From Verif Require Import Base RagelSyntax.
From Verif.Parsers Require Import Common.
Import ListNotations.
Open Scope string_scope.
Open Scope Z_scope.
Open Scope list_scope.

(** shell.rl:31 *)
Definition a_shell_ccallback : action := mkAction 94001 [Switch [(0, Mls); (3, Mcode); ((-2), Minl "SHELL_LANG"); ((-1), Mnl "SHELL_LANG")]].

(** shell.rl:47-47 *)
Definition m_shell_comment : rx :=
  cats (Aug [Finish a_comment] (Lit (bytes "#"))) [Star m_nonnewline].

(** shell.rl:49-60 *)
Definition m_shell_sq_str : rx :=
  cats (Aug [Finish a_enqueue; Finish a_code] (Lit (bytes "'"))) [
    Star (alts (Aug [Leave (mkAction 94501 [Entity (-2)]); Leave a_shell_ccallback] m_newline) [
      cats (Lit (bytes "\")) [
        Aug [Leave (mkAction 94502 [Entity (-2)]); Leave a_shell_ccallback] m_newline];
      m_ws;
      Aug [Finish a_code] (NCls [(9, 10); (12, 13); (32, 32); (39, 39); (92, 92)]);
      cats (Lit (bytes "\")) [Aug [Finish a_code] m_nonnewline]]);
    Aug [Finish a_commit] (Lit (bytes "'"))].

(** shell.rl:61-72 *)
Definition m_shell_dq_str : rx :=
  cats (Aug [Finish a_enqueue; Finish a_code] (Lit (bytes """"))) [
    Star (alts (Aug [Leave (mkAction 94503 [Entity (-2)]); Leave a_shell_ccallback] m_newline) [
      cats (Lit (bytes "\")) [
        Aug [Leave (mkAction 94504 [Entity (-2)]); Leave a_shell_ccallback] m_newline];
      m_ws;
      Aug [Finish a_code] (NCls [(9, 10); (12, 13); (32, 32); (34, 34); (92, 92)]);
      cats (Lit (bytes "\")) [Aug [Finish a_code] m_nonnewline]]);
    Aug [Finish a_commit] (Lit (bytes """"))].

(** shell.rl:74-74 *)
Definition m_shell_string : rx :=
  alts m_shell_sq_str [m_shell_dq_str].

(** shell.rl:76-82 *)
Definition i_shell_line : instance :=
  Scanner [
    (Aug [All (mkAction 94505 [Entity 0])] m_spaces, Some a_shell_ccallback);
    (m_shell_comment, None);
    (m_shell_string, None);
    (Aug [All (mkAction 94506 [Entity (-1)])] m_newline, Some a_shell_ccallback);
    (Aug [All (mkAction 94507 [Entity 3])] (NotChr r_space), Some a_shell_ccallback)].

(** shell.rl:86 *)
Definition a_shell_ecallback : action := mkAction 94002 [Report "SHELL_LANG" ["space"; "comment"; "string"; "any"]].

(** shell.rl:90-90 *)
Definition m_shell_comment_entity : rx :=
  cats (Lit (bytes "#")) [Star m_nonnewline].

(** shell.rl:92-97 *)
Definition i_shell_entity : instance :=
  Scanner [
    (Aug [All (mkAction 94508 [Entity 0])] (Plus r_space), Some a_shell_ecallback);
    (Aug [All (mkAction 94509 [Entity 1])] m_shell_comment_entity, Some a_shell_ecallback);
    (NotChr r_space, None)].

Definition the_parser : parser := mkParser [i_shell_line] "SHELL_LANG".
Definition the_entities : parser := mkParser [i_shell_entity] "SHELL_LANG".
