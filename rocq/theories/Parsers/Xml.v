(** Transcription of /repo/src/parsers/xml.rl: the line counting machine and the
    entity machine (written by tools/ragel/gen.py). *)
From Coq Require Import ZArith String List.
From Verif Require Import Base RagelSyntax.
From Verif.Parsers Require Import Common.
Import ListNotations.
Open Scope string_scope.
Open Scope Z_scope.
Open Scope list_scope.

(** xml.rl:33 *)
Definition a_xml_ccallback : action := mkAction 110001 [Switch [(0, Mls); (5, Mcode); ((-2), Minl "XML_LANG"); ((-1), Mnl "XML_LANG"); ((-3), Mblank "XML_LANG")]].

(** xml.rl:52-59 *)
Definition m_xml_comment : rx :=
  CatFin (cats (Aug [Finish a_comment] (Lit (bytes "<!--"))) [
    Star (alts (Aug [Leave (mkAction 110501 [Entity (-2)]); Leave a_xml_ccallback] m_newline) [
      m_ws;
      Aug [Finish a_comment] (Diff m_nonnewline m_ws)])]) (Lit (bytes "-->")).

(** xml.rl:61-61 *)
Definition m_xml_sq_str : rx :=
  cats (Lit (bytes "'")) [
    Star (NCls [(10, 10); (12, 13); (39, 39)]);
    Aug [Finish a_code] (Lit (bytes "'"))].

(** xml.rl:62-62 *)
Definition m_xml_dq_str : rx :=
  cats (Lit (bytes """")) [
    Star (NCls [(10, 10); (12, 13); (34, 34)]);
    Aug [Finish a_code] (Lit (bytes """"))].

(** xml.rl:63-70 *)
Definition m_xml_cdata_str : rx :=
  CatFin (cats (Aug [Finish a_code] (Lit (bytes "<![CDATA["))) [
    Star (alts (Aug [Leave (mkAction 110502 [Entity (-2)]); Leave a_xml_ccallback] m_newline) [
      m_ws;
      Aug [Finish a_code] (Diff m_nonnewline m_ws)])]) (Lit (bytes "]]>")).

(** xml.rl:71-71 *)
Definition m_xml_string : rx :=
  alts m_xml_sq_str [m_xml_dq_str; m_xml_cdata_str].

(** xml.rl:73-79 *)
Definition i_xml_line : instance :=
  Scanner [
    (Aug [All (mkAction 110503 [Entity 0])] m_spaces, Some a_xml_ccallback);
    (m_xml_comment, None);
    (m_xml_string, None);
    (Aug [All (mkAction 110504 [Entity (-1)])] m_newline, Some a_xml_ccallback);
    (Aug [All (mkAction 110505 [Entity 5])] (NotChr r_space), Some a_xml_ccallback)].

(** xml.rl:83 *)
Definition a_xml_ecallback : action := mkAction 110002 [Report "XML_LANG" ["space"; "comment"; "doctype"; "tag"; "entity"; "any"]].

(** xml.rl:87-87 *)
Definition m_xml_comment_entity : rx :=
  CatFin (cats (Lit (bytes "<!--")) [Star r_any]) (Lit (bytes "-->")).

(** xml.rl:89-94 *)
Definition i_xml_entity : instance :=
  Scanner [
    (Aug [All (mkAction 110506 [Entity 0])] (Plus r_space), Some a_xml_ecallback);
    (Aug [All (mkAction 110507 [Entity 1])] m_xml_comment_entity, Some a_xml_ecallback);
    (NotChr r_space, None)].

Definition the_parser : parser := mkParser [i_xml_line] "XML_LANG".
Definition the_entities : parser := mkParser [i_xml_entity] "XML_LANG".
