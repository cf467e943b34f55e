(** Transcription of /repo/src/parsers/mxml.rl: the line counting machine and the
    entity machine (written by tools/ragel/gen.py). *)
From Coq Require Import ZArith String List.
From Verif Require Import Base RagelSyntax.
From Verif.Parsers Require Import Common Css Actionscript.
Import ListNotations.
Open Scope string_scope.
Open Scope Z_scope.
Open Scope list_scope.

(** mxml.rl:38 *)
Definition a_mxml_ccallback : action := mkAction 68001 [Switch [(0, Mls); (5, Mcode); ((-2), Minl "MXML_LANG"); ((-1), Mnl "MXML_LANG"); ((-3), Mblank "MXML_LANG")]].

(** mxml.rl:90-90 *)
Definition m_mxml_css_entry : rx :=
  Aug [Finish a_code] (Lit (bytes "<mx:Style>")).

(** mxml.rl:102-102 *)
Definition m_mxml_as_entry : rx :=
  Aug [Finish a_code] (Lit (bytes "<mx:Script>")).

(** mxml.rl:57-64 *)
Definition m_mxml_comment : rx :=
  CatFin (cats (Aug [Finish a_comment] (Lit (bytes "<!--"))) [
    Star (alts (Aug [Leave (mkAction 68501 [Entity (-2)]); Leave a_mxml_ccallback] m_newline) [
      m_ws;
      Aug [Finish a_comment] (Diff m_nonnewline m_ws)])]) (Lit (bytes "-->")).

(** mxml.rl:66-75 *)
Definition m_mxml_sq_str : rx :=
  cats (Aug [Finish a_code] (Lit (bytes "'"))) [
    Star (alts (Aug [Leave (mkAction 68502 [Entity (-2)]); Leave a_mxml_ccallback] m_newline) [
      m_ws;
      Aug [Finish a_code] (NCls [(9, 10); (12, 13); (32, 32); (39, 39); (92, 92)]);
      cats (Lit (bytes "\")) [Aug [Finish a_code] m_nonnewline]]);
    Lit (bytes "'")].

(** mxml.rl:76-85 *)
Definition m_mxml_dq_str : rx :=
  cats (Aug [Finish a_code] (Lit (bytes """"))) [
    Star (alts (Aug [Leave (mkAction 68503 [Entity (-2)]); Leave a_mxml_ccallback] m_newline) [
      m_ws;
      Aug [Finish a_code] (NCls [(9, 10); (12, 13); (32, 32); (34, 34); (92, 92)]);
      cats (Lit (bytes "\")) [Aug [Finish a_code] m_nonnewline]]);
    Lit (bytes """")].

(** mxml.rl:86-86 *)
Definition m_mxml_string : rx :=
  alts m_mxml_sq_str [m_mxml_dq_str].

(** mxml.rl:114-125 *)
Definition i_mxml_line : instance :=
  Scanner [
    (Aug [Finish (mkAction 68513 [Entity (-3)]); Finish a_mxml_ccallback; Finish (mkAction 68514 [Asaw "CSS_LANG"])] m_mxml_css_entry, Some (mkAction 68515 [Call 1]));
    (Aug [Finish (mkAction 68516 [Entity (-3)]); Finish a_mxml_ccallback; Finish (mkAction 68517 [Asaw "AS_LANG"])] m_mxml_as_entry, Some (mkAction 68518 [Call 2]));
    (Aug [All (mkAction 68519 [Entity 0])] m_spaces, Some a_mxml_ccallback);
    (m_mxml_comment, None);
    (m_mxml_string, None);
    (Aug [All (mkAction 68520 [Entity (-1)])] m_newline, Some a_mxml_ccallback);
    (Aug [All (mkAction 68521 [Entity 5])] (NotChr r_space), Some a_mxml_ccallback)].

(** mxml.rl:91-91 *)
Definition m_mxml_css_outry : rx :=
  Aug [Finish a_check_blank_outry; Finish a_code] (Lit (bytes "</mx:Style>")).

(** mxml.rl:92-100 *)
Definition i_mxml_css_line : instance :=
  Scanner [
    (Aug [Finish (mkAction 68505 [PTs; Ret])] m_mxml_css_outry, None);
    (Aug [All (mkAction 68506 [Entity 0])] m_spaces, Some a_css_ccallback);
    (m_css_comment, None);
    (m_css_string, None);
    (Aug [All (mkAction 68507 [Entity (-1)])] m_newline, Some a_css_ccallback);
    (Aug [All (mkAction 68508 [Entity 9])] (NotChr r_space), Some a_css_ccallback)].

(** mxml.rl:103-103 *)
Definition m_mxml_as_outry : rx :=
  Aug [Finish a_check_blank_outry; Finish a_code] (Lit (bytes "</mx:Script>")).

(** mxml.rl:104-112 *)
Definition i_mxml_as_line : instance :=
  Scanner [
    (Aug [Finish (mkAction 68509 [PTs; Ret])] m_mxml_as_outry, None);
    (Aug [All (mkAction 68510 [Entity 0])] m_spaces, Some a_as_ccallback);
    (m_as_comment, None);
    (m_as_string, None);
    (Aug [All (mkAction 68511 [Entity (-1)])] m_newline, Some a_as_ccallback);
    (Aug [All (mkAction 68512 [Entity 3])] (NotChr r_space), Some a_as_ccallback)].

(** mxml.rl:133-133 *)
Definition m_mxml_css_entry_entity : rx :=
  Lit (bytes "<mx:Style>").

(** mxml.rl:144-144 *)
Definition m_mxml_as_entry_entity : rx :=
  Lit (bytes "<mx:Script>").

(** mxml.rl:129 *)
Definition a_mxml_ecallback : action := mkAction 68002 [Report "MXML_LANG" ["space"; "comment"; "doctype"; "tag"; "entity"; "any"]].

(** mxml.rl:155-155 *)
Definition m_mxml_comment_entity : rx :=
  CatFin (cats (Lit (bytes "<!--")) [Star r_any]) (Lit (bytes "-->")).

(** mxml.rl:157-166 *)
Definition i_mxml_entity : instance :=
  Scanner [
    (m_mxml_css_entry_entity, Some (mkAction 68528 [Call 1]));
    (m_mxml_as_entry_entity, Some (mkAction 68529 [Call 2]));
    (Aug [All (mkAction 68530 [Entity 0])] (Plus r_space), Some a_mxml_ecallback);
    (Aug [All (mkAction 68531 [Entity 1])] m_mxml_comment_entity, Some a_mxml_ecallback);
    (NotChr r_space, None)].

(** mxml.rl:134-134 *)
Definition m_mxml_css_outry_entity : rx :=
  Lit (bytes "</mx:Style>").

(** mxml.rl:135-142 *)
Definition i_mxml_css_entity : instance :=
  Scanner [
    (Aug [Finish (mkAction 68522 [Ret])] m_mxml_css_outry_entity, None);
    (Aug [All (mkAction 68523 [Entity 0])] (Plus r_space), Some a_css_ecallback);
    (Aug [All (mkAction 68524 [Entity 1])] m_css_comment_entity, Some a_css_ecallback);
    (NotChr r_space, None)].

(** mxml.rl:145-145 *)
Definition m_mxml_as_outry_entity : rx :=
  Lit (bytes "</mx:Script>").

(** mxml.rl:146-153 *)
Definition i_mxml_as_entity : instance :=
  Scanner [
    (Aug [Finish (mkAction 68525 [Ret])] m_mxml_as_outry_entity, None);
    (Aug [All (mkAction 68526 [Entity 0])] (Plus r_space), Some a_as_ecallback);
    (Aug [All (mkAction 68527 [Entity 1])] m_as_comment_entity, Some a_as_ecallback);
    (NotChr r_space, None)].

Definition the_parser : parser := mkParser [i_mxml_line; i_mxml_css_line; i_mxml_as_line] "MXML_LANG".
Definition the_entities : parser := mkParser [i_mxml_entity; i_mxml_css_entity; i_mxml_as_entity] "MXML_LANG".
