(** Transcription of /repo/src/parsers/xslt.rl: the line counting machine and the
    entity machine (written by tools/ragel/gen.py). *)
From Coq Require Import ZArith String List.
From Verif Require Import Base RagelSyntax.
From Verif.Parsers Require Import Common.
Import ListNotations.
Open Scope string_scope.
Open Scope Z_scope.
Open Scope list_scope.

(** xslt.rl:33 *)
Definition a_xslt_ccallback : action := mkAction 112001 [Switch [(0, Mls); (5, Mcode); ((-2), Minl "XSLT_LANG"); ((-1), Mnl "XSLT_LANG"); ((-3), Mblank "XSLT_LANG")]].

(** xslt.rl:52-59 *)
Definition m_xslt_comment : rx :=
  CatFin (cats (Aug [Finish a_comment] (Lit (bytes "<!--"))) [
    Star (alts (Aug [Leave (mkAction 112501 [Entity (-2)]); Leave a_xslt_ccallback] m_newline) [
      m_ws;
      Aug [Finish a_comment] (Diff m_nonnewline m_ws)])]) (Lit (bytes "-->")).

(** xslt.rl:61-61 *)
Definition m_xslt_sq_str : rx :=
  cats (Lit (bytes "'")) [
    Star (alts (NCls [(10, 10); (12, 13); (39, 39); (92, 92)]) [cats (Lit (bytes "\")) [m_nonnewline]]);
    Aug [Finish a_code] (Lit (bytes "'"))].

(** xslt.rl:62-62 *)
Definition m_xslt_dq_str : rx :=
  cats (Lit (bytes """")) [
    Star (alts (NCls [(10, 10); (12, 13); (34, 34); (92, 92)]) [cats (Lit (bytes "\")) [m_nonnewline]]);
    Aug [Finish a_code] (Lit (bytes """"))].

(** xslt.rl:63-70 *)
Definition m_xslt_cdata_str : rx :=
  CatFin (cats (Aug [Finish a_code] (Lit (bytes "<![CDATA["))) [
    Star (alts (Aug [Leave (mkAction 112502 [Entity (-2)]); Leave a_xslt_ccallback] m_newline) [
      m_ws;
      Aug [Finish a_code] (Diff m_nonnewline m_ws)])]) (Lit (bytes "]]>")).

(** xslt.rl:71-71 *)
Definition m_xslt_string : rx :=
  alts m_xslt_sq_str [m_xslt_dq_str; m_xslt_cdata_str].

(** xslt.rl:73-79 *)
Definition i_xslt_line : instance :=
  Scanner [
    (Aug [All (mkAction 112503 [Entity 0])] m_spaces, Some a_xslt_ccallback);
    (m_xslt_comment, None);
    (m_xslt_string, None);
    (Aug [All (mkAction 112504 [Entity (-1)])] m_newline, Some a_xslt_ccallback);
    (Aug [All (mkAction 112505 [Entity 5])] (NotChr r_space), Some a_xslt_ccallback)].

(** xslt.rl:83 *)
Definition a_xslt_ecallback : action := mkAction 112002 [Report "XSLT_LANG" ["space"; "comment"; "doctype"; "tag"; "entity"; "any"]].

(** xslt.rl:87-87 *)
Definition m_xslt_comment_entity : rx :=
  CatFin (cats (Lit (bytes "<!--")) [Star r_any]) (Lit (bytes "-->")).

(** xslt.rl:89-94 *)
Definition i_xslt_entity : instance :=
  Scanner [
    (Aug [All (mkAction 112506 [Entity 0])] (Plus r_space), Some a_xslt_ecallback);
    (Aug [All (mkAction 112507 [Entity 1])] m_xslt_comment_entity, Some a_xslt_ecallback);
    (NotChr r_space, None)].

Definition the_parser : parser := mkParser [i_xslt_line] "XSLT_LANG".
Definition the_entities : parser := mkParser [i_xslt_entity] "XSLT_LANG".
