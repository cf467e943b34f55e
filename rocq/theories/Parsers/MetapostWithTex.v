(** Transcription of /repo/src/parsers/metapost_with_tex.rl: the line counting machine and the
    entity machine (written by tools/ragel/gen.py). *)
From Coq Require Import ZArith String List.
From Verif Require Import Base RagelSyntax.
From Verif.Parsers Require Import Common Tex.
Import ListNotations.
Open Scope string_scope.
Open Scope Z_scope.
Open Scope list_scope.

(** metapost_with_tex.rl:35 *)
Definition a_mptex_ccallback : action := mkAction 64001 [Switch [(0, Mls); (3, Mcode); ((-2), Minl "MPTEX_LANG"); ((-1), Mnl "MPTEX_LANG"); ((-3), Mblank "MPTEX_LANG")]].

(** metapost_with_tex.rl:58-58 *)
Definition m_mptex_tex_entry : rx :=
  Aug [Finish a_code] (alts (Lit (bytes "verbatimtex")) [Lit (bytes "btex")]).

(** metapost_with_tex.rl:54-54 *)
Definition m_mptex_comment : rx :=
  cats (Aug [Finish (mkAction 64501 [Hold]); Finish a_comment] (Lit (bytes "%"))) [
    Star m_nonnewline].

(** metapost_with_tex.rl:56-56 *)
Definition m_mptex_string : rx :=
  cats (Aug [Finish a_code] (Lit (bytes """"))) [
    Star (alts (NCls [(10, 10); (12, 13); (34, 34); (92, 92)]) [cats (Lit (bytes "\")) [m_nonnewline]]);
    Lit (bytes """")].

(** metapost_with_tex.rl:69-78 *)
Definition i_mptex_line : instance :=
  Scanner [
    (Aug [Finish (mkAction 64506 [Entity (-3)]); Finish a_mptex_ccallback; Finish (mkAction 64507 [Asaw "TEX_LANG"])] m_mptex_tex_entry, Some (mkAction 64508 [Call 1]));
    (Aug [All (mkAction 64509 [Entity 0])] m_spaces, Some a_mptex_ccallback);
    (m_mptex_comment, None);
    (m_mptex_string, None);
    (Aug [All (mkAction 64510 [Entity (-1)])] m_newline, Some a_mptex_ccallback);
    (Aug [All (mkAction 64511 [Entity 3])] (NotChr r_space), Some a_mptex_ccallback)].

(** metapost_with_tex.rl:59-59 *)
Definition m_mptex_tex_outry : rx :=
  Aug [Finish a_check_blank_outry; Finish a_code] (Lit (bytes "etex")).

(** metapost_with_tex.rl:60-67 *)
Definition i_mptex_tex_line : instance :=
  Scanner [
    (Aug [Finish (mkAction 64502 [PTs; Ret])] m_mptex_tex_outry, None);
    (Aug [All (mkAction 64503 [Entity 0])] m_spaces, Some a_tex_ccallback);
    (m_tex_comment, None);
    (Aug [All (mkAction 64504 [Entity (-1)])] m_newline, Some a_tex_ccallback);
    (Aug [All (mkAction 64505 [Entity 3])] (NotChr r_space), Some a_tex_ccallback)].

(** metapost_with_tex.rl:86-86 *)
Definition m_mptex_tex_entry_entity : rx :=
  alts (Lit (bytes "verbatimtex")) [Lit (bytes "btex")].

(** metapost_with_tex.rl:82 *)
Definition a_mptex_ecallback : action := mkAction 64002 [Report "MPTEX_LANG" ["space"; "comment"; "string"; "any"]].

(** metapost_with_tex.rl:97-97 *)
Definition m_mptex_comment_entity : rx :=
  cats (Lit (bytes "%")) [Star m_nonnewline].

(** metapost_with_tex.rl:99-107 *)
Definition i_mptex_entity : instance :=
  Scanner [
    (m_mptex_tex_entry_entity, Some (mkAction 64515 [Call 1]));
    (Aug [All (mkAction 64516 [Entity 0])] (Plus r_space), Some a_mptex_ecallback);
    (Aug [All (mkAction 64517 [Entity 1])] m_mptex_comment_entity, Some a_mptex_ecallback);
    (NotChr r_space, None)].

(** metapost_with_tex.rl:87-87 *)
Definition m_mptex_tex_outry_entity : rx :=
  Lit (bytes "etex").

(** metapost_with_tex.rl:88-95 *)
Definition i_mptex_tex_entity : instance :=
  Scanner [
    (Aug [Finish (mkAction 64512 [Ret])] m_mptex_tex_outry_entity, None);
    (Aug [All (mkAction 64513 [Entity 0])] (Plus r_space), Some a_tex_ecallback);
    (Aug [All (mkAction 64514 [Entity 1])] m_tex_comment_entity, Some a_tex_ecallback);
    (NotChr r_space, None)].

Definition the_parser : parser := mkParser [i_mptex_line; i_mptex_tex_line] "MPTEX_LANG".
Definition the_entities : parser := mkParser [i_mptex_entity; i_mptex_tex_entity] "MPTEX_LANG".
