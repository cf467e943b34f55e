(** Transcription of /repo/src/parsers/xmlschema.rl: the line counting machine and the
    entity machine (written by tools/ragel/gen.py). *)
From Coq Require Import ZArith String List.
From Verif Require Import Base RagelSyntax.
From Verif.Parsers Require Import Common.
Import ListNotations.
Open Scope string_scope.
Open Scope Z_scope.
Open Scope list_scope.

(** xmlschema.rl:33 *)
Definition a_xmlschema_ccallback : action := mkAction 111001 [Switch [(0, Mls); (5, Mcode); ((-2), Minl "XMLSCHEMA_LANG"); ((-1), Mnl "XMLSCHEMA_LANG"); ((-3), Mblank "XMLSCHEMA_LANG")]].

(** xmlschema.rl:52-59 *)
Definition m_xmlschema_comment : rx :=
  CatFin (cats (Aug [Finish a_comment] (Lit (bytes "<!--"))) [
    Star (alts (Aug [Leave (mkAction 111501 [Entity (-2)]); Leave a_xmlschema_ccallback] m_newline) [
      m_ws;
      Aug [Finish a_comment] (Diff m_nonnewline m_ws)])]) (Lit (bytes "-->")).

(** xmlschema.rl:61-61 *)
Definition m_xmlschema_sq_str : rx :=
  cats (Lit (bytes "'")) [
    Star (alts (NCls [(10, 10); (12, 13); (39, 39); (92, 92)]) [cats (Lit (bytes "\")) [m_nonnewline]]);
    Aug [Finish a_code] (Lit (bytes "'"))].

(** xmlschema.rl:62-62 *)
Definition m_xmlschema_dq_str : rx :=
  cats (Lit (bytes """")) [
    Star (alts (NCls [(10, 10); (12, 13); (34, 34); (92, 92)]) [cats (Lit (bytes "\")) [m_nonnewline]]);
    Aug [Finish a_code] (Lit (bytes """"))].

(** xmlschema.rl:63-70 *)
Definition m_xmlschema_cdata_str : rx :=
  CatFin (cats (Aug [Finish a_code] (Lit (bytes "<![CDATA["))) [
    Star (alts (Aug [Leave (mkAction 111502 [Entity (-2)]); Leave a_xmlschema_ccallback] m_newline) [
      m_ws;
      Aug [Finish a_code] (Diff m_nonnewline m_ws)])]) (Lit (bytes "]]>")).

(** xmlschema.rl:71-71 *)
Definition m_xmlschema_string : rx :=
  alts m_xmlschema_sq_str [m_xmlschema_dq_str; m_xmlschema_cdata_str].

(** xmlschema.rl:73-79 *)
Definition i_xmlschema_line : instance :=
  Scanner [
    (Aug [All (mkAction 111503 [Entity 0])] m_spaces, Some a_xmlschema_ccallback);
    (m_xmlschema_comment, None);
    (m_xmlschema_string, None);
    (Aug [All (mkAction 111504 [Entity (-1)])] m_newline, Some a_xmlschema_ccallback);
    (Aug [All (mkAction 111505 [Entity 5])] (NotChr r_space), Some a_xmlschema_ccallback)].

(** xmlschema.rl:83 *)
Definition a_xmlschema_ecallback : action := mkAction 111002 [Report "XMLSCHEMA_LANG" ["space"; "comment"; "doctype"; "tag"; "entity"; "any"]].

(** xmlschema.rl:88-88 *)
Definition m_xmlschema_comment_entity : rx :=
  CatFin (cats (Lit (bytes "<!--")) [Star r_any]) (Lit (bytes "-->")).

(** xmlschema.rl:90-95 *)
Definition i_xmlschema_entity : instance :=
  Scanner [
    (Aug [All (mkAction 111506 [Entity 0])] (Plus r_space), Some a_xmlschema_ecallback);
    (Aug [All (mkAction 111507 [Entity 1])] m_xmlschema_comment_entity, Some a_xmlschema_ecallback);
    (NotChr r_space, None)].

Definition the_parser : parser := mkParser [i_xmlschema_line] "XMLSCHEMA_LANG".
Definition the_entities : parser := mkParser [i_xmlschema_entity] "XMLSCHEMA_LANG".
