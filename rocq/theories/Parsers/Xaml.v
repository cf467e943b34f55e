(** Transcription of /repo/src/parsers/xaml.rl: the line counting machine and the
    entity machine (written by tools/ragel/gen.py). *)
From Coq Require Import ZArith String List.
From Verif Require Import Base RagelSyntax.
From Verif.Parsers Require Import Common.
Import ListNotations.
Open Scope string_scope.
Open Scope Z_scope.
Open Scope list_scope.

(** xaml.rl:31 *)
Definition a_xaml_ccallback : action := mkAction 109001 [Switch [(0, Mls); (5, Mcode); ((-2), Minl "XAML_LANG"); ((-1), Mnl "XAML_LANG"); ((-3), Mblank "XAML_LANG")]].

(** xaml.rl:50-57 *)
Definition m_xaml_comment : rx :=
  CatFin (cats (Aug [Finish a_comment] (Lit (bytes "<!--"))) [
    Star (alts (Aug [Leave (mkAction 109501 [Entity (-2)]); Leave a_xaml_ccallback] m_newline) [
      m_ws;
      Aug [Finish a_comment] (Diff m_nonnewline m_ws)])]) (Lit (bytes "-->")).

(** xaml.rl:59-59 *)
Definition m_xaml_sq_str : rx :=
  cats (Lit (bytes "'")) [
    Star (NCls [(10, 10); (12, 13); (39, 39)]);
    Aug [Finish a_code] (Lit (bytes "'"))].

(** xaml.rl:60-60 *)
Definition m_xaml_dq_str : rx :=
  cats (Lit (bytes """")) [
    Star (NCls [(10, 10); (12, 13); (34, 34)]);
    Aug [Finish a_code] (Lit (bytes """"))].

(** xaml.rl:61-68 *)
Definition m_xaml_cdata_str : rx :=
  CatFin (cats (Aug [Finish a_code] (Lit (bytes "<![CDATA["))) [
    Star (alts (Aug [Leave (mkAction 109502 [Entity (-2)]); Leave a_xaml_ccallback] m_newline) [
      m_ws;
      Aug [Finish a_code] (Diff m_nonnewline m_ws)])]) (Lit (bytes "]]>")).

(** xaml.rl:69-69 *)
Definition m_xaml_string : rx :=
  alts m_xaml_sq_str [m_xaml_dq_str; m_xaml_cdata_str].

(** xaml.rl:71-77 *)
Definition i_xaml_line : instance :=
  Scanner [
    (Aug [All (mkAction 109503 [Entity 0])] m_spaces, Some a_xaml_ccallback);
    (m_xaml_comment, None);
    (m_xaml_string, None);
    (Aug [All (mkAction 109504 [Entity (-1)])] m_newline, Some a_xaml_ccallback);
    (Aug [All (mkAction 109505 [Entity 5])] (NotChr r_space), Some a_xaml_ccallback)].

(** xaml.rl:81 *)
Definition a_xaml_ecallback : action := mkAction 109002 [Report "XAML_LANG" ["space"; "comment"; "doctype"; "tag"; "entity"; "any"]].

(** xaml.rl:85-85 *)
Definition m_xaml_comment_entity : rx :=
  CatFin (cats (Lit (bytes "<!--")) [Star r_any]) (Lit (bytes "-->")).

(** xaml.rl:87-92 *)
Definition i_xaml_entity : instance :=
  Scanner [
    (Aug [All (mkAction 109506 [Entity 0])] (Plus r_space), Some a_xaml_ecallback);
    (Aug [All (mkAction 109507 [Entity 1])] m_xaml_comment_entity, Some a_xaml_ecallback);
    (NotChr r_space, None)].

Definition the_parser : parser := mkParser [i_xaml_line] "XAML_LANG".
Definition the_entities : parser := mkParser [i_xaml_entity] "XAML_LANG".
