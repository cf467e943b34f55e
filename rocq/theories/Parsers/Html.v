(** Transcription of /repo/src/parsers/html.rl: the line counting machine and the
    entity machine (written by tools/ragel/gen.py). *)
From Coq Require Import ZArith String List.
From Verif Require Import Base RagelSyntax.
From Verif.Parsers Require Import Common Css Javascript.
Import ListNotations.
Open Scope string_scope.
Open Scope Z_scope.
Open Scope list_scope.

(** html.rl:38 *)
Definition a_html_ccallback : action := mkAction 46001 [Switch [(0, Mls); (5, Mcode); ((-2), Minl "HTML_LANG"); ((-1), Mnl "HTML_LANG"); ((-3), Mblank "HTML_LANG")]].

(** html.rl:72-72 *)
Definition m_html_css_entry : rx :=
  cats (CatFin (cats (Lit (bytes "<")) [LitI (bytes "style"); Plus (NCls [(62, 62)])]) (Lit (bytes "text/css"))) [
    Plus (NCls [(62, 62)]);
    Aug [Finish a_code] (Lit (bytes ">"))].

(** html.rl:84-84 *)
Definition m_html_js_entry : rx :=
  cats (CatFin (cats (Lit (bytes "<")) [LitI (bytes "script"); Plus (NCls [(62, 62)])]) (Lit (bytes "text/javascript"))) [
    Plus (NCls [(62, 62)]);
    Aug [Finish a_code] (Lit (bytes ">"))].

(** html.rl:57-64 *)
Definition m_html_comment : rx :=
  CatFin (cats (Aug [Finish a_comment] (Lit (bytes "<!--"))) [
    Star (alts (Aug [Leave (mkAction 46501 [Entity (-2)]); Leave a_html_ccallback] m_newline) [
      m_ws;
      Aug [Finish a_comment] (Diff m_nonnewline m_ws)])]) (Lit (bytes "-->")).

(** html.rl:66-66 *)
Definition m_html_sq_str : rx :=
  cats (Lit (bytes "'")) [
    Star (alts (NCls [(10, 10); (12, 13); (39, 39); (92, 92)]) [cats (Lit (bytes "\")) [m_nonnewline]]);
    Aug [Finish a_code] (Lit (bytes "'"))].

(** html.rl:67-67 *)
Definition m_html_dq_str : rx :=
  cats (Lit (bytes """")) [
    Star (alts (NCls [(10, 10); (12, 13); (34, 34); (92, 92)]) [cats (Lit (bytes "\")) [m_nonnewline]]);
    Aug [Finish a_code] (Lit (bytes """"))].

(** html.rl:68-68 *)
Definition m_html_string : rx :=
  alts m_html_sq_str [m_html_dq_str].

(** html.rl:96-107 *)
Definition i_html_line : instance :=
  Scanner [
    (Aug [Finish (mkAction 46511 [Entity (-3)]); Finish a_html_ccallback; Finish (mkAction 46512 [Asaw "CSS_LANG"])] m_html_css_entry, Some (mkAction 46513 [Call 1]));
    (Aug [Finish (mkAction 46514 [Entity (-3)]); Finish a_html_ccallback; Finish (mkAction 46515 [Asaw "JS_LANG"])] m_html_js_entry, Some (mkAction 46516 [Call 2]));
    (Aug [All (mkAction 46517 [Entity 0])] m_spaces, Some a_html_ccallback);
    (m_html_comment, None);
    (m_html_string, None);
    (Aug [All (mkAction 46518 [Entity (-1)])] m_newline, Some a_html_ccallback);
    (Aug [All (mkAction 46519 [Entity 5])] (NotChr r_space), Some a_html_ccallback)].

(** html.rl:70-70 *)
Definition m_ws_or_inl : rx :=
  alts m_ws [Aug [Finish (mkAction 46502 [Entity (-2)]); Leave a_html_ccallback] m_newline].

(** html.rl:73-73 *)
Definition m_html_css_outry : rx :=
  cats (Lit (bytes "</")) [
    LitI (bytes "style");
    Star m_ws_or_inl;
    Aug [Finish a_check_blank_outry; Finish a_code] (Lit (bytes ">"))].

(** html.rl:74-82 *)
Definition i_html_css_line : instance :=
  Scanner [
    (Aug [Finish (mkAction 46503 [PTs; Ret])] m_html_css_outry, None);
    (Aug [All (mkAction 46504 [Entity 0])] m_spaces, Some a_css_ccallback);
    (m_css_comment, None);
    (m_css_string, None);
    (Aug [All (mkAction 46505 [Entity (-1)])] m_newline, Some a_css_ccallback);
    (Aug [All (mkAction 46506 [Entity 9])] (NotChr r_space), Some a_css_ccallback)].

(** html.rl:85-85 *)
Definition m_html_js_outry : rx :=
  cats (Lit (bytes "</")) [
    LitI (bytes "script");
    Star m_ws_or_inl;
    Aug [Finish a_check_blank_outry; Finish a_code] (Lit (bytes ">"))].

(** html.rl:86-94 *)
Definition i_html_js_line : instance :=
  Scanner [
    (Aug [Finish (mkAction 46507 [PTs; Ret])] m_html_js_outry, None);
    (Aug [All (mkAction 46508 [Entity 0])] m_spaces, Some a_js_ccallback);
    (m_js_comment, None);
    (m_js_string, None);
    (Aug [All (mkAction 46509 [Entity (-1)])] m_newline, Some a_js_ccallback);
    (Aug [All (mkAction 46510 [Entity 7])] (NotChr r_space), Some a_js_ccallback)].

(** html.rl:115-115 *)
Definition m_html_css_entry_entity : rx :=
  cats (CatFin (cats (Lit (bytes "<")) [LitI (bytes "style"); Plus (NCls [(62, 62)])]) (Lit (bytes "text/css"))) [
    Plus (NCls [(62, 62)]);
    Lit (bytes ">")].

(** html.rl:126-126 *)
Definition m_html_js_entry_entity : rx :=
  cats (CatFin (cats (Lit (bytes "<")) [LitI (bytes "script"); Plus (NCls [(62, 62)])]) (Lit (bytes "text/javascript"))) [
    Plus (NCls [(62, 62)]);
    Lit (bytes ">")].

(** html.rl:111 *)
Definition a_html_ecallback : action := mkAction 46002 [Report "HTML_LANG" ["space"; "comment"; "doctype"; "tag"; "entity"; "any"]].

(** html.rl:137-137 *)
Definition m_html_comment_entity : rx :=
  CatFin (cats (Lit (bytes "<!--")) [Star r_any]) (Lit (bytes "-->")).

(** html.rl:139-148 *)
Definition i_html_entity : instance :=
  Scanner [
    (m_html_css_entry_entity, Some (mkAction 46526 [Call 1]));
    (m_html_js_entry_entity, Some (mkAction 46527 [Call 2]));
    (Aug [All (mkAction 46528 [Entity 0])] (Plus r_space), Some a_html_ecallback);
    (Aug [All (mkAction 46529 [Entity 1])] m_html_comment_entity, Some a_html_ecallback);
    (NotChr r_space, None)].

(** html.rl:116-116 *)
Definition m_html_css_outry_entity : rx :=
  cats (Lit (bytes "</")) [LitI (bytes "style"); Star m_ws_or_inl; Lit (bytes ">")].

(** html.rl:117-124 *)
Definition i_html_css_entity : instance :=
  Scanner [
    (Aug [Finish (mkAction 46520 [Ret])] m_html_css_outry_entity, None);
    (Aug [All (mkAction 46521 [Entity 0])] (Plus r_space), Some a_css_ecallback);
    (Aug [All (mkAction 46522 [Entity 1])] m_css_comment_entity, Some a_css_ecallback);
    (NotChr r_space, None)].

(** html.rl:127-127 *)
Definition m_html_js_outry_entity : rx :=
  cats (Lit (bytes "</")) [LitI (bytes "script"); Star m_ws_or_inl; Lit (bytes ">")].

(** html.rl:128-135 *)
Definition i_html_js_entity : instance :=
  Scanner [
    (Aug [Finish (mkAction 46523 [Ret])] m_html_js_outry_entity, None);
    (Aug [All (mkAction 46524 [Entity 0])] (Plus r_space), Some a_js_ecallback);
    (Aug [All (mkAction 46525 [Entity 1])] m_js_comment_entity, Some a_js_ecallback);
    (NotChr r_space, None)].

Definition the_parser : parser := mkParser [i_html_line; i_html_css_line; i_html_js_line] "HTML_LANG".
Definition the_entities : parser := mkParser [i_html_entity; i_html_css_entity; i_html_js_entity] "HTML_LANG".
