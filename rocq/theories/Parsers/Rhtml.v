(** Transcription of /repo/src/parsers/rhtml.rl: the line counting machine and the
    entity machine (written by tools/ragel/gen.py). *)
From Coq Require Import ZArith String List.
From Verif Require Import Base RagelSyntax.
From Verif.Parsers Require Import Common Css Javascript Ruby.
Import ListNotations.
Open Scope string_scope.
Open Scope Z_scope.
Open Scope list_scope.

(** rhtml.rl:40 *)
Definition a_rhtml_ccallback : action := mkAction 89001 [Switch [(0, Mls); (5, Mcode); ((-2), Membinl "RHTML_LANG"); ((-1), Membnl "RHTML_LANG"); ((-3), Mblank "RHTML_LANG")]].

(** rhtml.rl:100-100 *)
Definition m_rhtml_css_entry : rx :=
  cats (CatFin (cats (Lit (bytes "<")) [LitI (bytes "style"); Plus (NCls [(62, 62)])]) (Lit (bytes "text/css"))) [
    Plus (NCls [(62, 62)]);
    Aug [Finish a_code] (Lit (bytes ">"))].

(** rhtml.rl:112-112 *)
Definition m_rhtml_js_entry : rx :=
  cats (CatFin (cats (Lit (bytes "<")) [LitI (bytes "script"); Plus (NCls [(62, 62)])]) (Lit (bytes "text/javascript"))) [
    Plus (NCls [(62, 62)]);
    Aug [Finish a_code] (Lit (bytes ">"))].

(** rhtml.rl:124-124 *)
Definition m_rhtml_ruby_entry : rx :=
  Aug [Finish a_code] (Lit (bytes "<%")).

(** rhtml.rl:136-150 *)
Definition i_rhtml_line : instance :=
  Scanner [
    (Aug [Finish (mkAction 89523 [Entity (-3)]); Finish a_rhtml_ccallback; Finish (mkAction 89524 [Asaw "CSS_LANG"])] m_rhtml_css_entry, Some (mkAction 89525 [Call 1]));
    (Aug [Finish (mkAction 89526 [Entity (-3)]); Finish a_rhtml_ccallback; Finish (mkAction 89527 [Asaw "JS_LANG"])] m_rhtml_js_entry, Some (mkAction 89528 [Call 2]));
    (Aug [Finish (mkAction 89529 [Entity (-3)]); Finish a_rhtml_ccallback; Finish (mkAction 89530 [Asaw "RUBY_LANG"])] m_rhtml_ruby_entry, Some (mkAction 89531 [Call 3]));
    (Aug [All (mkAction 89532 [Entity 0])] m_spaces, Some a_rhtml_ccallback);
    (Aug [Finish a_comment] (Lit (bytes "<!--")), Some (mkAction 89533 [Goto 4]));
    (Aug [Finish a_code] (Lit (bytes "'")), Some (mkAction 89534 [Goto 5]));
    (Aug [Finish a_code] (Lit (bytes """")), Some (mkAction 89535 [Goto 6]));
    (Aug [All (mkAction 89536 [Entity (-1)])] m_newline, Some a_rhtml_ccallback);
    (Aug [All (mkAction 89537 [Entity 5])] (NotChr r_space), Some a_rhtml_ccallback)].

(** rhtml.rl:98-98 *)
Definition m_ws_or_inl : rx :=
  alts m_ws [Aug [Finish (mkAction 89510 [Entity (-2)]); Leave a_rhtml_ccallback] m_newline].

(** rhtml.rl:101-101 *)
Definition m_rhtml_css_outry : rx :=
  cats (Lit (bytes "</")) [
    LitI (bytes "style");
    Star m_ws_or_inl;
    Aug [Finish a_check_blank_outry; Finish a_code] (Lit (bytes ">"))].

(** rhtml.rl:102-110 *)
Definition i_rhtml_css_line : instance :=
  Scanner [
    (Aug [Finish (mkAction 89511 [PTs; Ret])] m_rhtml_css_outry, None);
    (Aug [All (mkAction 89512 [Entity 0])] m_spaces, Some a_css_ccallback);
    (m_css_comment, None);
    (m_css_string, None);
    (Aug [All (mkAction 89513 [Entity (-1)])] m_newline, Some a_css_ccallback);
    (Aug [All (mkAction 89514 [Entity 9])] (NotChr r_space), Some a_css_ccallback)].

(** rhtml.rl:113-113 *)
Definition m_rhtml_js_outry : rx :=
  cats (Lit (bytes "</")) [
    LitI (bytes "script");
    Star m_ws_or_inl;
    Aug [Finish a_check_blank_outry; Finish a_code] (Lit (bytes ">"))].

(** rhtml.rl:114-122 *)
Definition i_rhtml_js_line : instance :=
  Scanner [
    (Aug [Finish (mkAction 89515 [PTs; Ret])] m_rhtml_js_outry, None);
    (Aug [All (mkAction 89516 [Entity 0])] m_spaces, Some a_js_ccallback);
    (m_js_comment, None);
    (m_js_string, None);
    (Aug [All (mkAction 89517 [Entity (-1)])] m_newline, Some a_js_ccallback);
    (Aug [All (mkAction 89518 [Entity 7])] (NotChr r_space), Some a_js_ccallback)].

(** rhtml.rl:125-125 *)
Definition m_rhtml_ruby_outry : rx :=
  Aug [Finish a_check_blank_outry; Finish a_code] (Lit (bytes "%>")).

(** rhtml.rl:126-134 *)
Definition i_rhtml_ruby_line : instance :=
  Scanner [
    (Aug [Finish (mkAction 89519 [PTs; Ret])] m_rhtml_ruby_outry, None);
    (Aug [All (mkAction 89520 [Entity 0])] m_spaces, Some a_ruby_ccallback);
    (m_ruby_comment, None);
    (m_ruby_string, None);
    (Aug [All (mkAction 89521 [Entity (-1)])] m_newline, Some a_ruby_ccallback);
    (Aug [All (mkAction 89522 [Entity 3])] (NotChr r_space), Some a_ruby_ccallback)].

(** rhtml.rl:59-69 *)
Definition i_rhtml_comment : instance :=
  Plain (CatFin (Star (alts (Aug [Leave (mkAction 89501 [Entity (-2)]); Leave a_rhtml_ccallback] m_newline) [
    m_ws;
    Aug [Finish a_comment] (NotChr (alts r_space [Cls [(45, 45); (60, 60)]]));
    cats (Lit (bytes "<")) [
      Aug [Finish (mkAction 89502 [Asaw "RUBY_LANG"; Call 3])] (Lit (bytes "%"))];
    cats (Lit (bytes "<")) [NotStr (Lit (bytes "%"))]])) (Aug [Finish a_comment; Finish (mkAction 89503 [Goto 0])] (Lit (bytes "-->")))).

(** rhtml.rl:71-83 *)
Definition i_rhtml_sq_str : instance :=
  Plain (cats (Star (alts (Aug [Leave (mkAction 89504 [Entity (-2)]); Leave a_rhtml_ccallback] m_newline) [
      m_ws;
      Aug [Finish a_code] (NCls [(9, 10); (12, 13); (32, 32); (39, 39); (60, 60); (92, 92)]);
      cats (Lit (bytes "\")) [Aug [Finish a_code] m_nonnewline];
      cats (Lit (bytes "<")) [
        Aug [Finish (mkAction 89505 [Asaw "RUBY_LANG"; Call 3])] (Lit (bytes "%"))];
      cats (Lit (bytes "<")) [NotStr (Lit (bytes "%"))]])) [
    Aug [Finish (mkAction 89506 [Goto 0])] (Lit (bytes "'"))]).

(** rhtml.rl:84-96 *)
Definition i_rhtml_dq_str : instance :=
  Plain (cats (Star (alts (Aug [Leave (mkAction 89507 [Entity (-2)]); Leave a_rhtml_ccallback] m_newline) [
      m_ws;
      Aug [Finish a_code] (NCls [(9, 10); (12, 13); (32, 32); (34, 34); (60, 60); (92, 92)]);
      cats (Lit (bytes "\")) [Aug [Finish a_code] m_nonnewline];
      cats (Lit (bytes "<")) [
        Aug [Finish (mkAction 89508 [Asaw "RUBY_LANG"; Call 3])] (Lit (bytes "%"))];
      cats (Lit (bytes "<")) [NotStr (Lit (bytes "%"))]])) [
    Aug [Finish (mkAction 89509 [Goto 0])] (Lit (bytes """"))]).

(** rhtml.rl:158-158 *)
Definition m_rhtml_css_entry_entity : rx :=
  cats (CatFin (cats (Lit (bytes "<")) [LitI (bytes "style"); Plus (NCls [(62, 62)])]) (Lit (bytes "text/css"))) [
    Plus (NCls [(62, 62)]);
    Lit (bytes ">")].

(** rhtml.rl:169-169 *)
Definition m_rhtml_js_entry_entity : rx :=
  cats (CatFin (cats (Lit (bytes "<")) [LitI (bytes "script"); Plus (NCls [(62, 62)])]) (Lit (bytes "text/javascript"))) [
    Plus (NCls [(62, 62)]);
    Lit (bytes ">")].

(** rhtml.rl:180-180 *)
Definition m_rhtml_ruby_entry_entity : rx :=
  Lit (bytes "<%").

(** rhtml.rl:154 *)
Definition a_rhtml_ecallback : action := mkAction 89002 [Report "RHTML_LANG" ["space"; "comment"; "doctype"; "tag"; "entity"; "any"]].

(** rhtml.rl:191-191 *)
Definition m_rhtml_comment_entity : rx :=
  CatFin (cats (Lit (bytes "<!--")) [Star r_any]) (Lit (bytes "-->")).

(** rhtml.rl:193-203 *)
Definition i_rhtml_entity : instance :=
  Scanner [
    (m_rhtml_css_entry_entity, Some (mkAction 89547 [Call 1]));
    (m_rhtml_js_entry_entity, Some (mkAction 89548 [Call 2]));
    (m_rhtml_ruby_entry_entity, Some (mkAction 89549 [Call 3]));
    (Aug [All (mkAction 89550 [Entity 0])] (Plus r_space), Some a_rhtml_ecallback);
    (Aug [All (mkAction 89551 [Entity 1])] m_rhtml_comment_entity, Some a_rhtml_ecallback);
    (NotChr r_space, None)].

(** rhtml.rl:159-159 *)
Definition m_rhtml_css_outry_entity : rx :=
  cats (Lit (bytes "</")) [LitI (bytes "style"); Star m_ws_or_inl; Lit (bytes ">")].

(** rhtml.rl:160-167 *)
Definition i_rhtml_css_entity : instance :=
  Scanner [
    (Aug [Finish (mkAction 89538 [Ret])] m_rhtml_css_outry_entity, None);
    (Aug [All (mkAction 89539 [Entity 0])] (Plus r_space), Some a_css_ecallback);
    (Aug [All (mkAction 89540 [Entity 1])] m_css_comment_entity, Some a_css_ecallback);
    (NotChr r_space, None)].

(** rhtml.rl:170-170 *)
Definition m_rhtml_js_outry_entity : rx :=
  cats (Lit (bytes "</")) [LitI (bytes "script"); Star m_ws_or_inl; Lit (bytes ">")].

(** rhtml.rl:171-178 *)
Definition i_rhtml_js_entity : instance :=
  Scanner [
    (Aug [Finish (mkAction 89541 [Ret])] m_rhtml_js_outry_entity, None);
    (Aug [All (mkAction 89542 [Entity 0])] (Plus r_space), Some a_js_ecallback);
    (Aug [All (mkAction 89543 [Entity 1])] m_js_comment_entity, Some a_js_ecallback);
    (NotChr r_space, None)].

(** rhtml.rl:181-181 *)
Definition m_rhtml_ruby_outry_entity : rx :=
  Lit (bytes "%>").

(** rhtml.rl:182-189 *)
Definition i_rhtml_ruby_entity : instance :=
  Scanner [
    (Aug [Finish (mkAction 89544 [Ret])] m_rhtml_ruby_outry_entity, None);
    (Aug [All (mkAction 89545 [Entity 0])] (Plus r_space), Some a_ruby_ecallback);
    (Aug [All (mkAction 89546 [Entity 1])] m_ruby_comment_entity, Some a_ruby_ecallback);
    (NotChr r_space, None)].

Definition the_parser : parser := mkParser [i_rhtml_line; i_rhtml_css_line; i_rhtml_js_line; i_rhtml_ruby_line; i_rhtml_comment; i_rhtml_sq_str; i_rhtml_dq_str] "RHTML_LANG".
Definition the_entities : parser := mkParser [i_rhtml_entity; i_rhtml_css_entity; i_rhtml_js_entity; i_rhtml_ruby_entity] "RHTML_LANG".
