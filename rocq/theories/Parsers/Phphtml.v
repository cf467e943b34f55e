(** Transcription of /repo/src/parsers/phphtml.rl: the line counting machine and the
    entity machine (written by tools/ragel/gen.py). *)
From Coq Require Import ZArith String List.
From Verif Require Import Base RagelSyntax.
From Verif.Parsers Require Import Common Css Javascript Php.
Import ListNotations.
Open Scope string_scope.
Open Scope Z_scope.
Open Scope list_scope.

(** phphtml.rl:40 *)
Definition a_phtml_ccallback : action := mkAction 79001 [Switch [(0, Mls); (5, Mcode); ((-2), Membinl "PHTML_LANG"); ((-1), Membnl "PHTML_LANG"); ((-3), Mblank "PHTML_LANG")]].

(** phphtml.rl:100-100 *)
Definition m_phtml_css_entry : rx :=
  cats (CatFin (cats (Lit (bytes "<")) [LitI (bytes "style"); Plus (NCls [(62, 62)])]) (Lit (bytes "text/css"))) [
    Plus (NCls [(62, 62)]);
    Aug [Finish a_code] (Lit (bytes ">"))].

(** phphtml.rl:112-112 *)
Definition m_phtml_js_entry : rx :=
  cats (CatFin (cats (Lit (bytes "<")) [LitI (bytes "script"); Plus (NCls [(62, 62)])]) (Lit (bytes "text/javascript"))) [
    Plus (NCls [(62, 62)]);
    Aug [Finish a_code] (Lit (bytes ">"))].

(** phphtml.rl:124-124 *)
Definition m_phtml_php_entry : rx :=
  Aug [Finish a_code] (cats (Lit (bytes "<?")) [Opt (Lit (bytes "php"))]).

(** phphtml.rl:136-150 *)
Definition i_phtml_line : instance :=
  Scanner [
    (Aug [Finish (mkAction 79523 [Entity (-3)]); Finish a_phtml_ccallback; Finish (mkAction 79524 [Asaw "CSS_LANG"])] m_phtml_css_entry, Some (mkAction 79525 [Call 1]));
    (Aug [Finish (mkAction 79526 [Entity (-3)]); Finish a_phtml_ccallback; Finish (mkAction 79527 [Asaw "JS_LANG"])] m_phtml_js_entry, Some (mkAction 79528 [Call 2]));
    (Aug [Finish (mkAction 79529 [Entity (-3)]); Finish a_php_ccallback; Finish (mkAction 79530 [Asaw "PHP_LANG"])] m_phtml_php_entry, Some (mkAction 79531 [Call 3]));
    (Aug [All (mkAction 79532 [Entity 0])] m_spaces, Some a_phtml_ccallback);
    (Aug [Finish a_comment] (Lit (bytes "<!--")), Some (mkAction 79533 [Goto 4]));
    (Aug [Finish a_code] (Lit (bytes "'")), Some (mkAction 79534 [Goto 5]));
    (Aug [Finish a_code] (Lit (bytes """")), Some (mkAction 79535 [Goto 6]));
    (Aug [All (mkAction 79536 [Entity (-1)])] m_newline, Some a_phtml_ccallback);
    (Aug [All (mkAction 79537 [Entity 5])] (NotChr r_space), Some a_phtml_ccallback)].

(** phphtml.rl:98-98 *)
Definition m_ws_or_inl : rx :=
  alts m_ws [Aug [Finish (mkAction 79510 [Entity (-2)]); Leave a_phtml_ccallback] m_newline].

(** phphtml.rl:101-101 *)
Definition m_phtml_css_outry : rx :=
  cats (Lit (bytes "</")) [
    LitI (bytes "style");
    Star m_ws_or_inl;
    Aug [Finish a_check_blank_outry; Finish a_code] (Lit (bytes ">"))].

(** phphtml.rl:102-110 *)
Definition i_phtml_css_line : instance :=
  Scanner [
    (Aug [Finish (mkAction 79511 [PTs; Ret])] m_phtml_css_outry, None);
    (Aug [All (mkAction 79512 [Entity 0])] m_spaces, Some a_css_ccallback);
    (m_css_comment, None);
    (m_css_string, None);
    (Aug [All (mkAction 79513 [Entity (-1)])] m_newline, Some a_css_ccallback);
    (Aug [All (mkAction 79514 [Entity 9])] (NotChr r_space), Some a_css_ccallback)].

(** phphtml.rl:113-113 *)
Definition m_phtml_js_outry : rx :=
  cats (Lit (bytes "</")) [
    LitI (bytes "script");
    Star m_ws_or_inl;
    Aug [Finish a_check_blank_outry; Finish a_code] (Lit (bytes ">"))].

(** phphtml.rl:114-122 *)
Definition i_phtml_js_line : instance :=
  Scanner [
    (Aug [Finish (mkAction 79515 [PTs; Ret])] m_phtml_js_outry, None);
    (Aug [All (mkAction 79516 [Entity 0])] m_spaces, Some a_js_ccallback);
    (m_js_comment, None);
    (m_js_string, None);
    (Aug [All (mkAction 79517 [Entity (-1)])] m_newline, Some a_js_ccallback);
    (Aug [All (mkAction 79518 [Entity 7])] (NotChr r_space), Some a_js_ccallback)].

(** phphtml.rl:125-125 *)
Definition m_phtml_php_outry : rx :=
  Aug [Finish a_check_blank_outry; Finish a_code] (Lit (bytes "?>")).

(** phphtml.rl:126-134 *)
Definition i_phtml_php_line : instance :=
  Scanner [
    (Aug [All (mkAction 79519 [PTs; Ret])] m_phtml_php_outry, None);
    (Aug [All (mkAction 79520 [Entity 0])] m_spaces, Some a_php_ccallback);
    (m_php_comment, None);
    (m_php_string, None);
    (Aug [All (mkAction 79521 [Entity (-1)])] m_newline, Some a_php_ccallback);
    (Aug [All (mkAction 79522 [Entity 3])] (NotChr r_space), Some a_php_ccallback)].

(** phphtml.rl:59-69 *)
Definition i_phtml_comment : instance :=
  Plain (CatFin (Star (alts (Aug [Leave (mkAction 79501 [Entity (-2)]); Leave a_phtml_ccallback] m_newline) [
    m_ws;
    Aug [Finish a_comment] (NotChr (alts r_space [Cls [(45, 45); (60, 60)]]));
    cats (Lit (bytes "<")) [
      Aug [Finish (mkAction 79502 [Asaw "PHP_LANG"; Call 3])] (Lit (bytes "?php"))];
    cats (Lit (bytes "<")) [NotStr (Lit (bytes "?php"))]])) (Aug [Finish a_comment; Finish (mkAction 79503 [Goto 0])] (Lit (bytes "-->")))).

(** phphtml.rl:71-83 *)
Definition i_phtml_sq_str : instance :=
  Plain (cats (Star (alts (Aug [Leave (mkAction 79504 [Entity (-2)]); Leave a_phtml_ccallback] m_newline) [
      m_ws;
      Aug [Finish a_code] (NCls [(9, 10); (12, 13); (32, 32); (39, 39); (60, 60); (92, 92)]);
      cats (Lit (bytes "\")) [Aug [Finish a_code] m_nonnewline];
      cats (Lit (bytes "<")) [
        Aug [Finish (mkAction 79505 [Asaw "PHP_LANG"; Call 3])] (Lit (bytes "?php"))];
      cats (Lit (bytes "<")) [NotStr (Lit (bytes "?php"))]])) [
    Aug [Finish (mkAction 79506 [Goto 0])] (Lit (bytes "'"))]).

(** phphtml.rl:84-96 *)
Definition i_phtml_dq_str : instance :=
  Plain (cats (Star (alts (Aug [Leave (mkAction 79507 [Entity (-2)]); Leave a_phtml_ccallback] m_newline) [
      m_ws;
      Aug [Finish a_code] (NCls [(9, 10); (12, 13); (32, 32); (34, 34); (60, 60); (92, 92)]);
      cats (Lit (bytes "\")) [Aug [Finish a_code] m_nonnewline];
      cats (Lit (bytes "<")) [
        Aug [Finish (mkAction 79508 [Asaw "PHP_LANG"; Call 3])] (Lit (bytes "?php"))];
      cats (Lit (bytes "<")) [NotStr (Lit (bytes "?php"))]])) [
    Aug [Finish (mkAction 79509 [Goto 0])] (Lit (bytes """"))]).

(** phphtml.rl:158-158 *)
Definition m_phtml_css_entry_entity : rx :=
  cats (CatFin (cats (Lit (bytes "<")) [LitI (bytes "style"); Plus (NCls [(62, 62)])]) (Lit (bytes "text/css"))) [
    Plus (NCls [(62, 62)]);
    Lit (bytes ">")].

(** phphtml.rl:169-169 *)
Definition m_phtml_js_entry_entity : rx :=
  cats (CatFin (cats (Lit (bytes "<")) [LitI (bytes "script"); Plus (NCls [(62, 62)])]) (Lit (bytes "text/javascript"))) [
    Plus (NCls [(62, 62)]);
    Lit (bytes ">")].

(** phphtml.rl:180-180 *)
Definition m_phtml_php_entry_entity : rx :=
  cats (Lit (bytes "<?")) [Opt (Lit (bytes "php"))].

(** phphtml.rl:154 *)
Definition a_phtml_ecallback : action := mkAction 79002 [Report "PHTML_LANG" ["space"; "comment"; "doctype"; "tag"; "entity"; "any"]].

(** phphtml.rl:191-191 *)
Definition m_phtml_comment_entity : rx :=
  CatFin (cats (Lit (bytes "<!--")) [Star r_any]) (Lit (bytes "-->")).

(** phphtml.rl:193-203 *)
Definition i_phtml_entity : instance :=
  Scanner [
    (m_phtml_css_entry_entity, Some (mkAction 79547 [Call 1]));
    (m_phtml_js_entry_entity, Some (mkAction 79548 [Call 2]));
    (m_phtml_php_entry_entity, Some (mkAction 79549 [Call 3]));
    (Aug [All (mkAction 79550 [Entity 0])] (Plus r_space), Some a_phtml_ecallback);
    (Aug [All (mkAction 79551 [Entity 1])] m_phtml_comment_entity, Some a_phtml_ecallback);
    (NotChr r_space, None)].

(** phphtml.rl:159-159 *)
Definition m_phtml_css_outry_entity : rx :=
  cats (Lit (bytes "</")) [LitI (bytes "style"); Star m_ws_or_inl; Lit (bytes ">")].

(** phphtml.rl:160-167 *)
Definition i_phtml_css_entity : instance :=
  Scanner [
    (Aug [Finish (mkAction 79538 [Ret])] m_phtml_css_outry_entity, None);
    (Aug [All (mkAction 79539 [Entity 0])] (Plus r_space), Some a_css_ecallback);
    (Aug [All (mkAction 79540 [Entity 1])] m_css_comment_entity, Some a_css_ecallback);
    (NotChr r_space, None)].

(** phphtml.rl:170-170 *)
Definition m_phtml_js_outry_entity : rx :=
  cats (Lit (bytes "</")) [LitI (bytes "script"); Star m_ws_or_inl; Lit (bytes ">")].

(** phphtml.rl:171-178 *)
Definition i_phtml_js_entity : instance :=
  Scanner [
    (Aug [Finish (mkAction 79541 [Ret])] m_phtml_js_outry_entity, None);
    (Aug [All (mkAction 79542 [Entity 0])] (Plus r_space), Some a_js_ecallback);
    (Aug [All (mkAction 79543 [Entity 1])] m_js_comment_entity, Some a_js_ecallback);
    (NotChr r_space, None)].

(** phphtml.rl:181-181 *)
Definition m_phtml_php_outry_entity : rx :=
  Lit (bytes "?>").

(** phphtml.rl:182-189 *)
Definition i_phtml_php_entity : instance :=
  Scanner [
    (Aug [Finish (mkAction 79544 [Ret])] m_phtml_php_outry_entity, None);
    (Aug [All (mkAction 79545 [Entity 0])] (Plus r_space), Some a_php_ecallback);
    (Aug [All (mkAction 79546 [Entity 1])] m_php_comment_entity, Some a_php_ecallback);
    (NotChr r_space, None)].

Definition the_parser : parser := mkParser [i_phtml_line; i_phtml_css_line; i_phtml_js_line; i_phtml_php_line; i_phtml_comment; i_phtml_sq_str; i_phtml_dq_str] "PHTML_LANG".
Definition the_entities : parser := mkParser [i_phtml_entity; i_phtml_css_entity; i_phtml_js_entity; i_phtml_php_entity] "PHTML_LANG".
