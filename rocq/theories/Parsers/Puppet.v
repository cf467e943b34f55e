(** Transcription of /repo/src/parsers/puppet.rl: the line counting machine and the
    entity machine (written by tools/ragel/gen.py). *)
From Coq Require Import ZArith String List.
From Verif Require Import Base RagelSyntax.
From Verif.Parsers Require Import Common.
Import ListNotations.
Open Scope string_scope.
Open Scope Z_scope.
Open Scope list_scope.

(** puppet.rl:32 *)
Definition a_puppet_ccallback : action := mkAction 84001 [Switch [(0, Mls); (3, Mcode); ((-2), Minl "PUPPET_LANG"); ((-1), Mnl "PUPPET_LANG")]].

(** puppet.rl:48-48 *)
Definition m_puppet_line_comment : rx :=
  cats (Aug [Finish a_comment] (Lit (bytes "#"))) [Star m_nonnewline].

(** puppet.rl:49-56 *)
Definition m_puppet_block_comment : rx :=
  CatFin (cats (Aug [Finish a_comment] (Lit (bytes "/*"))) [
    Star (alts (Aug [Leave (mkAction 84501 [Entity (-2)]); Leave a_puppet_ccallback] m_newline) [
      m_ws;
      Aug [Finish a_code] (Diff m_nonnewline m_ws)])]) (Lit (bytes "*/")).

(** puppet.rl:57-57 *)
Definition m_puppet_comment : rx :=
  alts m_puppet_line_comment [m_puppet_block_comment].

(** puppet.rl:59-68 *)
Definition m_puppet_string : rx :=
  cats (Aug [Finish a_code] (Lit (bytes "'"))) [
    Star (alts (Aug [Leave (mkAction 84502 [Entity (-2)]); Leave a_puppet_ccallback] m_newline) [
      m_ws;
      Aug [Finish a_code] (NCls [(9, 10); (12, 13); (32, 32); (39, 39); (92, 92)]);
      cats (Lit (bytes "\")) [Aug [Finish a_code] m_nonnewline]]);
    Lit (bytes "'")].

(** puppet.rl:70-76 *)
Definition i_puppet_line : instance :=
  Scanner [
    (Aug [All (mkAction 84503 [Entity 0])] m_spaces, Some a_puppet_ccallback);
    (m_puppet_comment, None);
    (m_puppet_string, None);
    (Aug [All (mkAction 84504 [Entity (-1)])] m_newline, Some a_puppet_ccallback);
    (Aug [All (mkAction 84505 [Entity 3])] (NotChr r_space), Some a_puppet_ccallback)].

(** puppet.rl:80 *)
Definition a_puppet_ecallback : action := mkAction 84002 [Report "PUPPET_LANG" ["space"; "comment"; "string"; "any"]].

(** puppet.rl:85-85 *)
Definition m_puppet_line_comment_entity : rx :=
  cats (Lit (bytes "#")) [Star m_nonnewline].

(** puppet.rl:86-86 *)
Definition m_puppet_block_comment_entity : rx :=
  CatFin (cats (Lit (bytes "/*")) [Star r_any]) (Lit (bytes "*/")).

(** puppet.rl:87-88 *)
Definition m_puppet_comment_entity : rx :=
  alts m_puppet_line_comment_entity [m_puppet_block_comment_entity].

(** puppet.rl:90-95 *)
Definition i_puppet_entity : instance :=
  Scanner [
    (Aug [All (mkAction 84506 [Entity 0])] (Plus r_space), Some a_puppet_ecallback);
    (Aug [All (mkAction 84507 [Entity 1])] m_puppet_comment_entity, Some a_puppet_ecallback);
    (NotChr r_space, None)].

Definition the_parser : parser := mkParser [i_puppet_line] "PUPPET_LANG".
Definition the_entities : parser := mkParser [i_puppet_entity] "PUPPET_LANG".
