(** Transcription of /repo/src/parsers/vb_aspx.rl: the line counting machine and the
    entity machine (written by tools/ragel/gen.py). *)
From Coq Require Import ZArith String List.
From Verif Require Import Base RagelSyntax.
From Verif.Parsers Require Import Common Css Javascript VisualBasic.
Import ListNotations.
Open Scope string_scope.
Open Scope Z_scope.
Open Scope list_scope.

(** vb_aspx.rl:38 *)
Definition a_vb_aspx_ccallback : action := mkAction 105001 [Switch [(0, Mls); (5, Mcode); ((-2), Membinl "VB_ASPX_LANG"); ((-1), Membnl "VB_ASPX_LANG"); ((-3), Mblank "VB_ASPX_LANG")]].

(** vb_aspx.rl:98-98 *)
Definition m_vb_aspx_css_entry : rx :=
  cats (CatFin (cats (Lit (bytes "<")) [LitI (bytes "style"); Plus (NCls [(62, 62)])]) (Lit (bytes "text/css"))) [
    Plus (NCls [(62, 62)]);
    Aug [Finish a_code] (Lit (bytes ">"))].

(** vb_aspx.rl:110-110 *)
Definition m_vb_aspx_js_entry : rx :=
  cats (CatFin (cats (Lit (bytes "<")) [LitI (bytes "script"); Plus (NCls [(62, 62)])]) (Lit (bytes "text/javascript"))) [
    Plus (NCls [(62, 62)]);
    Aug [Finish a_code] (Lit (bytes ">"))].

(** vb_aspx.rl:122-122 *)
Definition m_vb_aspx_cs_entry : rx :=
  Aug [Finish a_code] (alts (Lit (bytes "<%")) [
    cats (CatFin (cats (Lit (bytes "<")) [LitI (bytes "script"); Plus (NCls [(62, 62)])]) (Lit (bytes "server"))) [
      Plus (NCls [(62, 62)]);
      Lit (bytes ">")]]).

(** vb_aspx.rl:134-148 *)
Definition i_vb_aspx_line : instance :=
  Scanner [
    (Aug [Finish (mkAction 105523 [Entity (-3)]); Finish a_vb_aspx_ccallback; Finish (mkAction 105524 [Asaw "CSS_LANG"])] m_vb_aspx_css_entry, Some (mkAction 105525 [Call 1]));
    (Aug [Finish (mkAction 105526 [Entity (-3)]); Finish a_vb_aspx_ccallback; Finish (mkAction 105527 [Asaw "JS_LANG"])] m_vb_aspx_js_entry, Some (mkAction 105528 [Call 2]));
    (Aug [Finish (mkAction 105529 [Entity (-3)]); Finish a_vb_aspx_ccallback; Finish (mkAction 105530 [Asaw "VB_LANG"])] m_vb_aspx_cs_entry, Some (mkAction 105531 [Call 3]));
    (Aug [All (mkAction 105532 [Entity 0])] m_spaces, Some a_vb_aspx_ccallback);
    (Aug [Finish a_comment] (Lit (bytes "<!--")), Some (mkAction 105533 [Goto 4]));
    (Aug [Finish a_code] (Lit (bytes "'")), Some (mkAction 105534 [Goto 5]));
    (Aug [Finish a_code] (Lit (bytes """")), Some (mkAction 105535 [Goto 6]));
    (Aug [All (mkAction 105536 [Entity (-1)])] m_newline, Some a_vb_aspx_ccallback);
    (Aug [All (mkAction 105537 [Entity 5])] (NotChr r_space), Some a_vb_aspx_ccallback)].

(** vb_aspx.rl:96-96 *)
Definition m_ws_or_inl : rx :=
  alts m_ws [Aug [Finish (mkAction 105510 [Entity (-2)]); Leave a_vb_aspx_ccallback] m_newline].

(** vb_aspx.rl:99-99 *)
Definition m_vb_aspx_css_outry : rx :=
  cats (Lit (bytes "</")) [
    LitI (bytes "style");
    Star m_ws_or_inl;
    Aug [Finish a_check_blank_outry; Finish a_code] (Lit (bytes ">"))].

(** vb_aspx.rl:100-108 *)
Definition i_vb_aspx_css_line : instance :=
  Scanner [
    (Aug [Finish (mkAction 105511 [PTs; Ret])] m_vb_aspx_css_outry, None);
    (Aug [All (mkAction 105512 [Entity 0])] m_spaces, Some a_css_ccallback);
    (m_css_comment, None);
    (m_css_string, None);
    (Aug [All (mkAction 105513 [Entity (-1)])] m_newline, Some a_css_ccallback);
    (Aug [All (mkAction 105514 [Entity 9])] (NotChr r_space), Some a_css_ccallback)].

(** vb_aspx.rl:111-111 *)
Definition m_vb_aspx_js_outry : rx :=
  cats (Lit (bytes "</")) [
    LitI (bytes "script");
    Star m_ws_or_inl;
    Aug [Finish a_check_blank_outry; Finish a_code] (Lit (bytes ">"))].

(** vb_aspx.rl:112-120 *)
Definition i_vb_aspx_js_line : instance :=
  Scanner [
    (Aug [Finish (mkAction 105515 [PTs; Ret])] m_vb_aspx_js_outry, None);
    (Aug [All (mkAction 105516 [Entity 0])] m_spaces, Some a_js_ccallback);
    (m_js_comment, None);
    (m_js_string, None);
    (Aug [All (mkAction 105517 [Entity (-1)])] m_newline, Some a_js_ccallback);
    (Aug [All (mkAction 105518 [Entity 7])] (NotChr r_space), Some a_js_ccallback)].

(** vb_aspx.rl:123-123 *)
Definition m_vb_aspx_cs_outry : rx :=
  Aug [Finish a_code] (alts (Lit (bytes "%>")) [
    cats (Lit (bytes "</")) [
      LitI (bytes "script");
      Star m_ws_or_inl;
      Aug [Finish a_check_blank_outry] (Lit (bytes ">"))]]).

(** vb_aspx.rl:124-132 *)
Definition i_vb_aspx_cs_line : instance :=
  Scanner [
    (Aug [Finish (mkAction 105519 [PTs; Ret])] m_vb_aspx_cs_outry, None);
    (Aug [All (mkAction 105520 [Entity 0])] m_spaces, Some a_vb_ccallback);
    (m_vb_comment, None);
    (m_vb_string, None);
    (Aug [All (mkAction 105521 [Entity (-1)])] m_newline, Some a_vb_ccallback);
    (Aug [All (mkAction 105522 [Entity 3])] (NotChr r_space), Some a_vb_ccallback)].

(** vb_aspx.rl:57-67 *)
Definition i_vb_aspx_comment : instance :=
  Plain (CatFin (Star (alts (Aug [Leave (mkAction 105501 [Entity (-2)]); Leave a_vb_aspx_ccallback] m_newline) [
    m_ws;
    Aug [Finish a_comment] (NotChr (alts r_space [Cls [(45, 45); (60, 60)]]));
    cats (Lit (bytes "<")) [
      Aug [Finish (mkAction 105502 [Asaw "VB_LANG"; Call 3])] (Lit (bytes "%"))];
    cats (Lit (bytes "<")) [NotStr (Lit (bytes "%"))]])) (Aug [Finish a_comment; Finish (mkAction 105503 [Goto 0])] (Lit (bytes "-->")))).

(** vb_aspx.rl:69-81 *)
Definition i_vb_aspx_sq_str : instance :=
  Plain (cats (Star (alts (Aug [Leave (mkAction 105504 [Entity (-2)]); Leave a_vb_aspx_ccallback] m_newline) [
      m_ws;
      Aug [Finish a_code] (NCls [(9, 10); (12, 13); (32, 32); (39, 39); (60, 60); (92, 92)]);
      cats (Lit (bytes "\")) [Aug [Finish a_code] m_nonnewline];
      cats (Lit (bytes "<")) [
        Aug [Finish (mkAction 105505 [Asaw "VB_LANG"; Call 3])] (Lit (bytes "%"))];
      cats (Lit (bytes "<")) [NotStr (Lit (bytes "%"))]])) [
    Aug [Finish (mkAction 105506 [Goto 0])] (Lit (bytes "'"))]).

(** vb_aspx.rl:82-94 *)
Definition i_vb_aspx_dq_str : instance :=
  Plain (cats (Star (alts (Aug [Leave (mkAction 105507 [Entity (-2)]); Leave a_vb_aspx_ccallback] m_newline) [
      m_ws;
      Aug [Finish a_code] (NCls [(9, 10); (12, 13); (32, 32); (34, 34); (60, 60); (92, 92)]);
      cats (Lit (bytes "\")) [Aug [Finish a_code] m_nonnewline];
      cats (Lit (bytes "<")) [
        Aug [Finish (mkAction 105508 [Asaw "VB_LANG"; Call 3])] (Lit (bytes "%"))];
      cats (Lit (bytes "<")) [NotStr (Lit (bytes "%"))]])) [
    Aug [Finish (mkAction 105509 [Goto 0])] (Lit (bytes """"))]).

(** vb_aspx.rl:157-157 *)
Definition m_vb_aspx_css_entry_entity : rx :=
  cats (CatFin (cats (Lit (bytes "<")) [LitI (bytes "style"); Plus (NCls [(62, 62)])]) (Lit (bytes "text/css"))) [
    Plus (NCls [(62, 62)]);
    Lit (bytes ">")].

(** vb_aspx.rl:168-168 *)
Definition m_vb_aspx_js_entry_entity : rx :=
  cats (CatFin (cats (Lit (bytes "<")) [LitI (bytes "script"); Plus (NCls [(62, 62)])]) (Lit (bytes "text/javascript"))) [
    Plus (NCls [(62, 62)]);
    Lit (bytes ">")].

(** vb_aspx.rl:179-179 *)
Definition m_vb_aspx_cs_entry_entity : rx :=
  Aug [Finish a_code] (alts (Lit (bytes "<%")) [
    cats (CatFin (cats (Lit (bytes "<")) [LitI (bytes "script"); Plus (NCls [(62, 62)])]) (Lit (bytes "server"))) [
      Plus (NCls [(62, 62)]);
      Lit (bytes ">")]]).

(** vb_aspx.rl:152 *)
Definition a_vb_aspx_ecallback : action := mkAction 105002 [Report "VB_ASPX_LANG" ["space"; "comment"; "doctype"; "tag"; "entity"; "any"]].

(** vb_aspx.rl:190-190 *)
Definition m_vb_aspx_comment_entity : rx :=
  CatFin (cats (Lit (bytes "<!--")) [Star r_any]) (Lit (bytes "-->")).

(** vb_aspx.rl:192-202 *)
Definition i_vb_aspx_entity : instance :=
  Scanner [
    (m_vb_aspx_css_entry_entity, Some (mkAction 105547 [Call 1]));
    (m_vb_aspx_js_entry_entity, Some (mkAction 105548 [Call 2]));
    (m_vb_aspx_cs_entry_entity, Some (mkAction 105549 [Call 3]));
    (Aug [All (mkAction 105550 [Entity 0])] (Plus r_space), Some a_vb_aspx_ecallback);
    (Aug [All (mkAction 105551 [Entity 1])] m_vb_aspx_comment_entity, Some a_vb_aspx_ecallback);
    (NotChr r_space, None)].

(** vb_aspx.rl:158-158 *)
Definition m_vb_aspx_css_outry_entity : rx :=
  cats (Lit (bytes "</")) [LitI (bytes "style"); Star m_ws_or_inl; Lit (bytes ">")].

(** vb_aspx.rl:159-166 *)
Definition i_vb_aspx_css_entity : instance :=
  Scanner [
    (Aug [Finish (mkAction 105538 [Ret])] m_vb_aspx_css_outry_entity, None);
    (Aug [All (mkAction 105539 [Entity 0])] (Plus r_space), Some a_css_ecallback);
    (Aug [All (mkAction 105540 [Entity 1])] m_css_comment_entity, Some a_css_ecallback);
    (NotChr r_space, None)].

(** vb_aspx.rl:169-169 *)
Definition m_vb_aspx_js_outry_entity : rx :=
  cats (Lit (bytes "</")) [LitI (bytes "script"); Star m_ws_or_inl; Lit (bytes ">")].

(** vb_aspx.rl:170-177 *)
Definition i_vb_aspx_js_entity : instance :=
  Scanner [
    (Aug [Finish (mkAction 105541 [Ret])] m_vb_aspx_js_outry_entity, None);
    (Aug [All (mkAction 105542 [Entity 0])] (Plus r_space), Some a_js_ecallback);
    (Aug [All (mkAction 105543 [Entity 1])] m_js_comment_entity, Some a_js_ecallback);
    (NotChr r_space, None)].

(** vb_aspx.rl:180-180 *)
Definition m_vb_aspx_cs_outry_entity : rx :=
  Aug [Finish a_code] (alts (Lit (bytes "%>")) [
    cats (Lit (bytes "</")) [
      LitI (bytes "script");
      Star m_ws_or_inl;
      Aug [Finish a_check_blank_outry] (Lit (bytes ">"))]]).

(** vb_aspx.rl:181-188 *)
Definition i_vb_aspx_cs_entity : instance :=
  Scanner [
    (Aug [Finish (mkAction 105544 [Ret])] m_vb_aspx_cs_outry_entity, None);
    (Aug [All (mkAction 105545 [Entity 0])] (Plus r_space), Some a_vb_ecallback);
    (Aug [All (mkAction 105546 [Entity 1])] m_vb_comment_entity, Some a_vb_ecallback);
    (NotChr r_space, None)].

Definition the_parser : parser := mkParser [i_vb_aspx_line; i_vb_aspx_css_line; i_vb_aspx_js_line; i_vb_aspx_cs_line; i_vb_aspx_comment; i_vb_aspx_sq_str; i_vb_aspx_dq_str] "VB_ASPX_LANG".
Definition the_entities : parser := mkParser [i_vb_aspx_entity; i_vb_aspx_css_entity; i_vb_aspx_js_entity; i_vb_aspx_cs_entity] "VB_ASPX_LANG".
