(** Transcription of /repo/src/parsers/vim.rl: the line counting machine and the
    entity machine (written by tools/ragel/gen.py). *)
From Coq Require Import ZArith String List.
From Verif Require Import Base RagelSyntax.
From Verif.Parsers Require Import Common.
Import ListNotations.
Open Scope string_scope.
Open Scope Z_scope.
Open Scope list_scope.

(** vim.rl:31 *)
Definition a_vim_ccallback : action := mkAction 107001 [Switch [(0, Mls); (3, Mcode); ((-2), Minl "VIM_LANG"); ((-1), Mnl "VIM_LANG")]].

(** vim.rl:47-47 *)
Definition m_vim_comment : rx :=
  cats (Aug [When NoCode true; Finish a_comment] (Lit (bytes """"))) [Star m_nonnewline].

(** vim.rl:49-49 *)
Definition m_vim_sq_str : rx :=
  cats (Aug [Finish a_code] (Lit (bytes "'"))) [
    Star (alts (NCls [(10, 10); (12, 13); (39, 39); (92, 92)]) [cats (Lit (bytes "\")) [r_any]]);
    Lit (bytes "'")].

(** vim.rl:50-50 *)
Definition m_vim_dq_str : rx :=
  cats (Aug [When NoCode false; Finish a_code] (Lit (bytes """"))) [
    Star (alts (NCls [(10, 10); (12, 13); (34, 34); (92, 92)]) [cats (Lit (bytes "\")) [r_any]]);
    Lit (bytes """")].

(** vim.rl:51-51 *)
Definition m_vim_string : rx :=
  alts m_vim_sq_str [m_vim_dq_str].

(** vim.rl:53-61 *)
Definition i_vim_line : instance :=
  Scanner [
    (Aug [All (mkAction 107501 [Entity 0])] m_spaces, Some a_vim_ccallback);
    (m_vim_comment, None);
    (m_vim_string, None);
    (Aug [All (mkAction 107502 [Entity (-1)])] m_newline, Some a_vim_ccallback);
    (Aug [All (mkAction 107503 [Entity 3])] (NotChr (alts r_space [Lit (bytes """")])), Some a_vim_ccallback)].

(** vim.rl:69-69 *)
Definition i_vim_entity : instance :=
  Plain (Lit (bytes "TODO:")).

Definition the_parser : parser := mkParser [i_vim_line] "VIM_LANG".
Definition the_entities : parser := mkParser [i_vim_entity] "VIM_LANG".
