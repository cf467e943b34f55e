(** Transcription of /repo/src/parsers/cs_aspx.rl: the line counting machine and the
    entity machine (written by tools/ragel/gen.py). *)
From Coq Require Import ZArith String List.
From Verif Require Import Base RagelSyntax.
From Verif.Parsers Require Import Common Css Javascript C.
Import ListNotations.
Open Scope string_scope.
Open Scope Z_scope.
Open Scope list_scope.

(** cs_aspx.rl:38 *)
Definition a_cs_aspx_ccallback : action := mkAction 23001 [Switch [(0, Mls); (5, Mcode); ((-2), Membinl "CS_ASPX_LANG"); ((-1), Membnl "CS_ASPX_LANG"); ((-3), Mblank "CS_ASPX_LANG")]].

(** cs_aspx.rl:98-98 *)
Definition m_cs_aspx_css_entry : rx :=
  cats (CatFin (cats (Lit (bytes "<")) [LitI (bytes "style"); Plus (NCls [(62, 62)])]) (Lit (bytes "text/css"))) [
    Plus (NCls [(62, 62)]);
    Aug [Finish a_code] (Lit (bytes ">"))].

(** cs_aspx.rl:110-110 *)
Definition m_cs_aspx_js_entry : rx :=
  cats (CatFin (cats (Lit (bytes "<")) [LitI (bytes "script"); Plus (NCls [(62, 62)])]) (Lit (bytes "text/javascript"))) [
    Plus (NCls [(62, 62)]);
    Aug [Finish a_code] (Lit (bytes ">"))].

(** cs_aspx.rl:122-122 *)
Definition m_cs_aspx_cs_entry : rx :=
  Aug [Finish a_code] (alts (Lit (bytes "<%")) [
    cats (CatFin (cats (Lit (bytes "<")) [LitI (bytes "script"); Plus (NCls [(62, 62)])]) (Lit (bytes "server"))) [
      Plus (NCls [(62, 62)]);
      Lit (bytes ">")]]).

(** cs_aspx.rl:134-148 *)
Definition i_cs_aspx_line : instance :=
  Scanner [
    (Aug [Finish (mkAction 23523 [Entity (-3)]); Finish a_cs_aspx_ccallback; Finish (mkAction 23524 [Asaw "CSS_LANG"])] m_cs_aspx_css_entry, Some (mkAction 23525 [Call 1]));
    (Aug [Finish (mkAction 23526 [Entity (-3)]); Finish a_cs_aspx_ccallback; Finish (mkAction 23527 [Asaw "JS_LANG"])] m_cs_aspx_js_entry, Some (mkAction 23528 [Call 2]));
    (Aug [Finish (mkAction 23529 [Entity (-3)]); Finish a_cs_aspx_ccallback; Finish (mkAction 23530 [Asaw "C_LANG"])] m_cs_aspx_cs_entry, Some (mkAction 23531 [Call 3]));
    (Aug [All (mkAction 23532 [Entity 0])] m_spaces, Some a_cs_aspx_ccallback);
    (Aug [Finish a_comment] (Lit (bytes "<!--")), Some (mkAction 23533 [Goto 4]));
    (Aug [Finish a_code] (Lit (bytes "'")), Some (mkAction 23534 [Goto 5]));
    (Aug [Finish a_code] (Lit (bytes """")), Some (mkAction 23535 [Goto 6]));
    (Aug [All (mkAction 23536 [Entity (-1)])] m_newline, Some a_cs_aspx_ccallback);
    (Aug [All (mkAction 23537 [Entity 5])] (NotChr r_space), Some a_cs_aspx_ccallback)].

(** cs_aspx.rl:96-96 *)
Definition m_ws_or_inl : rx :=
  alts m_ws [Aug [Finish (mkAction 23510 [Entity (-2)]); Leave a_cs_aspx_ccallback] m_newline].

(** cs_aspx.rl:99-99 *)
Definition m_cs_aspx_css_outry : rx :=
  cats (Lit (bytes "</")) [
    LitI (bytes "style");
    Star m_ws_or_inl;
    Aug [Finish a_check_blank_outry; Finish a_code] (Lit (bytes ">"))].

(** cs_aspx.rl:100-108 *)
Definition i_cs_aspx_css_line : instance :=
  Scanner [
    (Aug [Finish (mkAction 23511 [PTs; Ret])] m_cs_aspx_css_outry, None);
    (Aug [All (mkAction 23512 [Entity 0])] m_spaces, Some a_css_ccallback);
    (m_css_comment, None);
    (m_css_string, None);
    (Aug [All (mkAction 23513 [Entity (-1)])] m_newline, Some a_css_ccallback);
    (Aug [All (mkAction 23514 [Entity 9])] (NotChr r_space), Some a_css_ccallback)].

(** cs_aspx.rl:111-111 *)
Definition m_cs_aspx_js_outry : rx :=
  cats (Lit (bytes "</")) [
    LitI (bytes "script");
    Star m_ws_or_inl;
    Aug [Finish a_check_blank_outry; Finish a_code] (Lit (bytes ">"))].

(** cs_aspx.rl:112-120 *)
Definition i_cs_aspx_js_line : instance :=
  Scanner [
    (Aug [Finish (mkAction 23515 [PTs; Ret])] m_cs_aspx_js_outry, None);
    (Aug [All (mkAction 23516 [Entity 0])] m_spaces, Some a_js_ccallback);
    (m_js_comment, None);
    (m_js_string, None);
    (Aug [All (mkAction 23517 [Entity (-1)])] m_newline, Some a_js_ccallback);
    (Aug [All (mkAction 23518 [Entity 7])] (NotChr r_space), Some a_js_ccallback)].

(** cs_aspx.rl:123-123 *)
Definition m_cs_aspx_cs_outry : rx :=
  Aug [Finish a_code] (alts (Lit (bytes "%>")) [
    cats (Lit (bytes "</")) [
      LitI (bytes "script");
      Star m_ws_or_inl;
      Aug [Finish a_check_blank_outry] (Lit (bytes ">"))]]).

(** cs_aspx.rl:124-132 *)
Definition i_cs_aspx_cs_line : instance :=
  Scanner [
    (Aug [Finish (mkAction 23519 [PTs; Ret])] m_cs_aspx_cs_outry, None);
    (Aug [All (mkAction 23520 [Entity 0])] m_spaces, Some a_c_ccallback);
    (m_c_comment, None);
    (m_c_string, None);
    (Aug [All (mkAction 23521 [Entity (-1)])] m_newline, Some a_c_ccallback);
    (Aug [All (mkAction 23522 [Entity 8])] (NotChr r_space), Some a_c_ccallback)].

(** cs_aspx.rl:57-67 *)
Definition i_cs_aspx_comment : instance :=
  Plain (CatFin (Star (alts (Aug [Leave (mkAction 23501 [Entity (-2)]); Leave a_cs_aspx_ccallback] m_newline) [
    m_ws;
    Aug [Finish a_comment] (NotChr (alts r_space [Cls [(45, 45); (60, 60)]]));
    cats (Lit (bytes "<")) [
      Aug [Finish (mkAction 23502 [Asaw "C_LANG"; Call 3])] (Lit (bytes "%"))];
    cats (Lit (bytes "<")) [NotStr (Lit (bytes "%"))]])) (Aug [Finish a_comment; Finish (mkAction 23503 [Goto 0])] (Lit (bytes "-->")))).

(** cs_aspx.rl:69-81 *)
Definition i_cs_aspx_sq_str : instance :=
  Plain (cats (Star (alts (Aug [Leave (mkAction 23504 [Entity (-2)]); Leave a_cs_aspx_ccallback] m_newline) [
      m_ws;
      Aug [Finish a_code] (NCls [(9, 10); (12, 13); (32, 32); (39, 39); (60, 60); (92, 92)]);
      cats (Lit (bytes "\")) [Aug [Finish a_code] m_nonnewline];
      cats (Lit (bytes "<")) [
        Aug [Finish (mkAction 23505 [Asaw "C_LANG"; Call 3])] (Lit (bytes "%"))];
      cats (Lit (bytes "<")) [NotStr (Lit (bytes "%"))]])) [
    Aug [Finish (mkAction 23506 [Goto 0])] (Lit (bytes "'"))]).

(** cs_aspx.rl:82-94 *)
Definition i_cs_aspx_dq_str : instance :=
  Plain (cats (Star (alts (Aug [Leave (mkAction 23507 [Entity (-2)]); Leave a_cs_aspx_ccallback] m_newline) [
      m_ws;
      Aug [Finish a_code] (NCls [(9, 10); (12, 13); (32, 32); (34, 34); (60, 60); (92, 92)]);
      cats (Lit (bytes "\")) [Aug [Finish a_code] m_nonnewline];
      cats (Lit (bytes "<")) [
        Aug [Finish (mkAction 23508 [Asaw "C_LANG"; Call 3])] (Lit (bytes "%"))];
      cats (Lit (bytes "<")) [NotStr (Lit (bytes "%"))]])) [
    Aug [Finish (mkAction 23509 [Goto 0])] (Lit (bytes """"))]).

(** cs_aspx.rl:157-157 *)
Definition m_cs_aspx_css_entry_entity : rx :=
  cats (CatFin (cats (Lit (bytes "<")) [LitI (bytes "style"); Plus (NCls [(62, 62)])]) (Lit (bytes "text/css"))) [
    Plus (NCls [(62, 62)]);
    Lit (bytes ">")].

(** cs_aspx.rl:168-168 *)
Definition m_cs_aspx_js_entry_entity : rx :=
  cats (CatFin (cats (Lit (bytes "<")) [LitI (bytes "script"); Plus (NCls [(62, 62)])]) (Lit (bytes "text/javascript"))) [
    Plus (NCls [(62, 62)]);
    Lit (bytes ">")].

(** cs_aspx.rl:179-179 *)
Definition m_cs_aspx_cs_entry_entity : rx :=
  Aug [Finish a_code] (alts (Lit (bytes "<%")) [
    cats (CatFin (cats (Lit (bytes "<")) [LitI (bytes "script"); Plus (NCls [(62, 62)])]) (Lit (bytes "server"))) [
      Plus (NCls [(62, 62)]);
      Lit (bytes ">")]]).

(** cs_aspx.rl:152 *)
Definition a_cs_aspx_ecallback : action := mkAction 23002 [Report "CS_ASPX_LANG" ["space"; "comment"; "doctype"; "tag"; "entity"; "any"]].

(** cs_aspx.rl:190-190 *)
Definition m_cs_aspx_comment_entity : rx :=
  CatFin (cats (Lit (bytes "<!--")) [Star r_any]) (Lit (bytes "-->")).

(** cs_aspx.rl:192-202 *)
Definition i_cs_aspx_entity : instance :=
  Scanner [
    (m_cs_aspx_css_entry_entity, Some (mkAction 23547 [Call 1]));
    (m_cs_aspx_js_entry_entity, Some (mkAction 23548 [Call 2]));
    (m_cs_aspx_cs_entry_entity, Some (mkAction 23549 [Call 3]));
    (Aug [All (mkAction 23550 [Entity 0])] (Plus r_space), Some a_cs_aspx_ecallback);
    (Aug [All (mkAction 23551 [Entity 1])] m_cs_aspx_comment_entity, Some a_cs_aspx_ecallback);
    (NotChr r_space, None)].

(** cs_aspx.rl:158-158 *)
Definition m_cs_aspx_css_outry_entity : rx :=
  cats (Lit (bytes "</")) [LitI (bytes "style"); Star m_ws_or_inl; Lit (bytes ">")].

(** cs_aspx.rl:159-166 *)
Definition i_cs_aspx_css_entity : instance :=
  Scanner [
    (Aug [Finish (mkAction 23538 [Ret])] m_cs_aspx_css_outry_entity, None);
    (Aug [All (mkAction 23539 [Entity 0])] (Plus r_space), Some a_css_ecallback);
    (Aug [All (mkAction 23540 [Entity 1])] m_css_comment_entity, Some a_css_ecallback);
    (NotChr r_space, None)].

(** cs_aspx.rl:169-169 *)
Definition m_cs_aspx_js_outry_entity : rx :=
  cats (Lit (bytes "</")) [LitI (bytes "script"); Star m_ws_or_inl; Lit (bytes ">")].

(** cs_aspx.rl:170-177 *)
Definition i_cs_aspx_js_entity : instance :=
  Scanner [
    (Aug [Finish (mkAction 23541 [Ret])] m_cs_aspx_js_outry_entity, None);
    (Aug [All (mkAction 23542 [Entity 0])] (Plus r_space), Some a_js_ecallback);
    (Aug [All (mkAction 23543 [Entity 1])] m_js_comment_entity, Some a_js_ecallback);
    (NotChr r_space, None)].

(** cs_aspx.rl:180-180 *)
Definition m_cs_aspx_cs_outry_entity : rx :=
  Aug [Finish a_code] (alts (Lit (bytes "%>")) [
    cats (Lit (bytes "</")) [
      LitI (bytes "script");
      Star m_ws_or_inl;
      Aug [Finish a_check_blank_outry] (Lit (bytes ">"))]]).

(** cs_aspx.rl:181-188 *)
Definition i_cs_aspx_cs_entity : instance :=
  Scanner [
    (Aug [Finish (mkAction 23544 [Ret])] m_cs_aspx_cs_outry_entity, None);
    (Aug [All (mkAction 23545 [Entity 0])] (Plus r_space), Some a_c_ecallback);
    (Aug [All (mkAction 23546 [Entity 1])] m_c_comment_entity, Some a_c_ecallback);
    (NotChr r_space, None)].

Definition the_parser : parser := mkParser [i_cs_aspx_line; i_cs_aspx_css_line; i_cs_aspx_js_line; i_cs_aspx_cs_line; i_cs_aspx_comment; i_cs_aspx_sq_str; i_cs_aspx_dq_str] "CS_ASPX_LANG".
Definition the_entities : parser := mkParser [i_cs_aspx_entity; i_cs_aspx_css_entity; i_cs_aspx_js_entity; i_cs_aspx_cs_entity] "CS_ASPX_LANG".
