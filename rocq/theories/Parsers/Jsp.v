(** Transcription of /repo/src/parsers/jsp.rl: the line counting machine and the
    entity machine (written by tools/ragel/gen.py). *)
From Coq Require Import ZArith String List.
From Verif Require Import Base RagelSyntax.
From Verif.Parsers Require Import Common Css Javascript Java.
Import ListNotations.
Open Scope string_scope.
Open Scope Z_scope.
Open Scope list_scope.

(** jsp.rl:40 *)
Definition a_jsp_ccallback : action := mkAction 51001 [Switch [(0, Mls); (5, Mcode); ((-2), Membinl "JSP_LANG"); ((-1), Membnl "JSP_LANG"); ((-3), Mblank "JSP_LANG")]].

(** jsp.rl:100-100 *)
Definition m_jsp_css_entry : rx :=
  cats (CatFin (cats (Lit (bytes "<")) [LitI (bytes "style"); Plus (NCls [(62, 62)])]) (Lit (bytes "text/css"))) [
    Plus (NCls [(62, 62)]);
    Aug [Finish a_code] (Lit (bytes ">"))].

(** jsp.rl:112-112 *)
Definition m_jsp_js_entry : rx :=
  cats (CatFin (cats (Lit (bytes "<")) [LitI (bytes "script"); Plus (NCls [(62, 62)])]) (Lit (bytes "text/javascript"))) [
    Plus (NCls [(62, 62)]);
    Aug [Finish a_code] (Lit (bytes ">"))].

(** jsp.rl:124-124 *)
Definition m_jsp_java_entry : rx :=
  Aug [Finish a_code] (Lit (bytes "<%")).

(** jsp.rl:136-150 *)
Definition i_jsp_line : instance :=
  Scanner [
    (Aug [Finish (mkAction 51523 [Entity (-3)]); Finish a_jsp_ccallback; Finish (mkAction 51524 [Asaw "CSS_LANG"])] m_jsp_css_entry, Some (mkAction 51525 [Call 1]));
    (Aug [Finish (mkAction 51526 [Entity (-3)]); Finish a_jsp_ccallback; Finish (mkAction 51527 [Asaw "JS_LANG"])] m_jsp_js_entry, Some (mkAction 51528 [Call 2]));
    (Aug [Finish (mkAction 51529 [Entity (-3)]); Finish a_jsp_ccallback; Finish (mkAction 51530 [Asaw "JAVA_LANG"])] m_jsp_java_entry, Some (mkAction 51531 [Call 3]));
    (Aug [All (mkAction 51532 [Entity 0])] m_spaces, Some a_jsp_ccallback);
    (Aug [Finish a_comment] (Lit (bytes "<!--")), Some (mkAction 51533 [Goto 4]));
    (Aug [Finish a_code] (Lit (bytes "'")), Some (mkAction 51534 [Goto 5]));
    (Aug [Finish a_code] (Lit (bytes """")), Some (mkAction 51535 [Goto 6]));
    (Aug [All (mkAction 51536 [Entity (-1)])] m_newline, Some a_jsp_ccallback);
    (Aug [All (mkAction 51537 [Entity 5])] (NotChr r_space), Some a_jsp_ccallback)].

(** jsp.rl:98-98 *)
Definition m_ws_or_inl : rx :=
  alts m_ws [Aug [Finish (mkAction 51510 [Entity (-2)]); Leave a_jsp_ccallback] m_newline].

(** jsp.rl:101-101 *)
Definition m_jsp_css_outry : rx :=
  cats (Lit (bytes "</")) [
    LitI (bytes "style");
    Star m_ws_or_inl;
    Aug [Finish a_check_blank_outry; Finish a_code] (Lit (bytes ">"))].

(** jsp.rl:102-110 *)
Definition i_jsp_css_line : instance :=
  Scanner [
    (Aug [Finish (mkAction 51511 [PTs; Ret])] m_jsp_css_outry, None);
    (Aug [All (mkAction 51512 [Entity 0])] m_spaces, Some a_css_ccallback);
    (m_css_comment, None);
    (m_css_string, None);
    (Aug [All (mkAction 51513 [Entity (-1)])] m_newline, Some a_css_ccallback);
    (Aug [All (mkAction 51514 [Entity 9])] (NotChr r_space), Some a_css_ccallback)].

(** jsp.rl:113-113 *)
Definition m_jsp_js_outry : rx :=
  cats (Lit (bytes "</")) [
    LitI (bytes "script");
    Star m_ws_or_inl;
    Aug [Finish a_check_blank_outry; Finish a_code] (Lit (bytes ">"))].

(** jsp.rl:114-122 *)
Definition i_jsp_js_line : instance :=
  Scanner [
    (Aug [Finish (mkAction 51515 [PTs; Ret])] m_jsp_js_outry, None);
    (Aug [All (mkAction 51516 [Entity 0])] m_spaces, Some a_js_ccallback);
    (m_js_comment, None);
    (m_js_string, None);
    (Aug [All (mkAction 51517 [Entity (-1)])] m_newline, Some a_js_ccallback);
    (Aug [All (mkAction 51518 [Entity 7])] (NotChr r_space), Some a_js_ccallback)].

(** jsp.rl:125-125 *)
Definition m_jsp_java_outry : rx :=
  Aug [Finish a_check_blank_outry; Finish a_code] (Lit (bytes "%>")).

(** jsp.rl:126-134 *)
Definition i_jsp_java_line : instance :=
  Scanner [
    (Aug [Finish (mkAction 51519 [PTs; Ret])] m_jsp_java_outry, None);
    (Aug [All (mkAction 51520 [Entity 0])] m_spaces, Some a_java_ccallback);
    (m_java_comment, None);
    (m_java_string, None);
    (Aug [All (mkAction 51521 [Entity (-1)])] m_newline, Some a_java_ccallback);
    (Aug [All (mkAction 51522 [Entity 7])] (NotChr r_space), Some a_java_ccallback)].

(** jsp.rl:59-69 *)
Definition i_jsp_comment : instance :=
  Plain (CatFin (Star (alts (Aug [Leave (mkAction 51501 [Entity (-2)]); Leave a_jsp_ccallback] m_newline) [
    m_ws;
    Aug [Finish a_comment] (NotChr (alts r_space [Cls [(45, 45); (60, 60)]]));
    cats (Lit (bytes "<")) [
      Aug [Finish (mkAction 51502 [Asaw "JAVA_LANG"; Call 3])] (Lit (bytes "%"))];
    cats (Lit (bytes "<")) [NotStr (Lit (bytes "%"))]])) (Aug [Finish a_comment; Finish (mkAction 51503 [Goto 0])] (Lit (bytes "-->")))).

(** jsp.rl:71-83 *)
Definition i_jsp_sq_str : instance :=
  Plain (cats (Star (alts (Aug [Leave (mkAction 51504 [Entity (-2)]); Leave a_jsp_ccallback] m_newline) [
      m_ws;
      Aug [Finish a_code] (NCls [(9, 10); (12, 13); (32, 32); (39, 39); (60, 60); (92, 92)]);
      cats (Lit (bytes "\")) [Aug [Finish a_code] m_nonnewline];
      cats (Lit (bytes "<")) [
        Aug [Finish (mkAction 51505 [Asaw "JAVA_LANG"; Call 3])] (Lit (bytes "%"))];
      cats (Lit (bytes "<")) [NotStr (Lit (bytes "%"))]])) [
    Aug [Finish (mkAction 51506 [Goto 0])] (Lit (bytes "'"))]).

(** jsp.rl:84-96 *)
Definition i_jsp_dq_str : instance :=
  Plain (cats (Star (alts (Aug [Leave (mkAction 51507 [Entity (-2)]); Leave a_jsp_ccallback] m_newline) [
      m_ws;
      Aug [Finish a_code] (NCls [(9, 10); (12, 13); (32, 32); (34, 34); (60, 60); (92, 92)]);
      cats (Lit (bytes "\")) [Aug [Finish a_code] m_nonnewline];
      cats (Lit (bytes "<")) [
        Aug [Finish (mkAction 51508 [Asaw "JAVA_LANG"; Call 3])] (Lit (bytes "%"))];
      cats (Lit (bytes "<")) [NotStr (Lit (bytes "%"))]])) [
    Aug [Finish (mkAction 51509 [Goto 0])] (Lit (bytes """"))]).

(** jsp.rl:158-158 *)
Definition m_jsp_css_entry_entity : rx :=
  cats (CatFin (cats (Lit (bytes "<")) [LitI (bytes "style"); Plus (NCls [(62, 62)])]) (Lit (bytes "text/css"))) [
    Plus (NCls [(62, 62)]);
    Lit (bytes ">")].

(** jsp.rl:169-169 *)
Definition m_jsp_js_entry_entity : rx :=
  cats (CatFin (cats (Lit (bytes "<")) [LitI (bytes "script"); Plus (NCls [(62, 62)])]) (Lit (bytes "text/javascript"))) [
    Plus (NCls [(62, 62)]);
    Lit (bytes ">")].

(** jsp.rl:180-180 *)
Definition m_jsp_java_entry_entity : rx :=
  Lit (bytes "<%").

(** jsp.rl:154 *)
Definition a_jsp_ecallback : action := mkAction 51002 [Report "JSP_LANG" ["space"; "comment"; "doctype"; "tag"; "entity"; "any"]].

(** jsp.rl:191-191 *)
Definition m_jsp_comment_entity : rx :=
  CatFin (cats (Lit (bytes "<!--")) [Star r_any]) (Lit (bytes "-->")).

(** jsp.rl:193-203 *)
Definition i_jsp_entity : instance :=
  Scanner [
    (m_jsp_css_entry_entity, Some (mkAction 51547 [Call 1]));
    (m_jsp_js_entry_entity, Some (mkAction 51548 [Call 2]));
    (m_jsp_java_entry_entity, Some (mkAction 51549 [Call 3]));
    (Aug [All (mkAction 51550 [Entity 0])] (Plus r_space), Some a_jsp_ecallback);
    (Aug [All (mkAction 51551 [Entity 1])] m_jsp_comment_entity, Some a_jsp_ecallback);
    (NotChr r_space, None)].

(** jsp.rl:159-159 *)
Definition m_jsp_css_outry_entity : rx :=
  cats (Lit (bytes "</")) [LitI (bytes "style"); Star m_ws_or_inl; Lit (bytes ">")].

(** jsp.rl:160-167 *)
Definition i_jsp_css_entity : instance :=
  Scanner [
    (Aug [Finish (mkAction 51538 [Ret])] m_jsp_css_outry_entity, None);
    (Aug [All (mkAction 51539 [Entity 0])] (Plus r_space), Some a_css_ecallback);
    (Aug [All (mkAction 51540 [Entity 1])] m_css_comment_entity, Some a_css_ecallback);
    (NotChr r_space, None)].

(** jsp.rl:170-170 *)
Definition m_jsp_js_outry_entity : rx :=
  cats (Lit (bytes "</")) [LitI (bytes "script"); Star m_ws_or_inl; Lit (bytes ">")].

(** jsp.rl:171-178 *)
Definition i_jsp_js_entity : instance :=
  Scanner [
    (Aug [Finish (mkAction 51541 [Ret])] m_jsp_js_outry_entity, None);
    (Aug [All (mkAction 51542 [Entity 0])] (Plus r_space), Some a_js_ecallback);
    (Aug [All (mkAction 51543 [Entity 1])] m_js_comment_entity, Some a_js_ecallback);
    (NotChr r_space, None)].

(** jsp.rl:181-181 *)
Definition m_jsp_java_outry_entity : rx :=
  Lit (bytes "%>").

(** jsp.rl:182-189 *)
Definition i_jsp_java_entity : instance :=
  Scanner [
    (Aug [Finish (mkAction 51544 [Ret])] m_jsp_java_outry_entity, None);
    (Aug [All (mkAction 51545 [Entity 0])] (Plus r_space), Some a_java_ecallback);
    (Aug [All (mkAction 51546 [Entity 1])] m_java_comment_entity, Some a_java_ecallback);
    (NotChr r_space, None)].

Definition the_parser : parser := mkParser [i_jsp_line; i_jsp_css_line; i_jsp_js_line; i_jsp_java_line; i_jsp_comment; i_jsp_sq_str; i_jsp_dq_str] "JSP_LANG".
Definition the_entities : parser := mkParser [i_jsp_entity; i_jsp_css_entity; i_jsp_js_entity; i_jsp_java_entity] "JSP_LANG".
