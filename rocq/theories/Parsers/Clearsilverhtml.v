(** Transcription of /repo/src/parsers/clearsilverhtml.rl: the line counting machine and the
    entity machine (written by tools/ragel/gen.py). *)
From Coq Require Import ZArith String List.
From Verif Require Import Base RagelSyntax.
From Verif.Parsers Require Import Common Css Javascript Clearsilver.
Import ListNotations.
Open Scope string_scope.
Open Scope Z_scope.
Open Scope list_scope.

(** clearsilverhtml.rl:40 *)
Definition a_cshtml_ccallback : action := mkAction 18001 [Switch [(0, Mls); (5, Mcode); ((-2), Membinl "CSHTML_LANG"); ((-1), Membnl "CSHTML_LANG"); ((-3), Mblank "CSHTML_LANG")]].

(** clearsilverhtml.rl:100-100 *)
Definition m_cshtml_css_entry : rx :=
  cats (CatFin (cats (Lit (bytes "<")) [LitI (bytes "style"); Plus (NCls [(62, 62)])]) (Lit (bytes "text/css"))) [
    Plus (NCls [(62, 62)]);
    Aug [Finish a_code] (Lit (bytes ">"))].

(** clearsilverhtml.rl:112-112 *)
Definition m_cshtml_js_entry : rx :=
  cats (CatFin (cats (Lit (bytes "<")) [LitI (bytes "script"); Plus (NCls [(62, 62)])]) (Lit (bytes "text/javascript"))) [
    Plus (NCls [(62, 62)]);
    Aug [Finish a_code] (Lit (bytes ">"))].

(** clearsilverhtml.rl:124-124 *)
Definition m_cshtml_cs_entry : rx :=
  Aug [Finish a_code] (Lit (bytes "<?cs")).

(** clearsilverhtml.rl:136-150 *)
Definition i_cshtml_line : instance :=
  Scanner [
    (Aug [Finish (mkAction 18523 [Entity (-3)]); Finish a_cshtml_ccallback; Finish (mkAction 18524 [Asaw "CSS_LANG"])] m_cshtml_css_entry, Some (mkAction 18525 [Call 1]));
    (Aug [Finish (mkAction 18526 [Entity (-3)]); Finish a_cshtml_ccallback; Finish (mkAction 18527 [Asaw "JS_LANG"])] m_cshtml_js_entry, Some (mkAction 18528 [Call 2]));
    (Aug [Finish (mkAction 18529 [Entity (-3)]); Finish a_cshtml_ccallback; Finish (mkAction 18530 [Asaw "CS_LANG"])] m_cshtml_cs_entry, Some (mkAction 18531 [Call 3]));
    (Aug [All (mkAction 18532 [Entity 0])] m_spaces, Some a_cshtml_ccallback);
    (Aug [Finish a_comment] (Lit (bytes "<!--")), Some (mkAction 18533 [Goto 4]));
    (Aug [Finish a_code] (Lit (bytes "'")), Some (mkAction 18534 [Goto 5]));
    (Aug [Finish a_code] (Lit (bytes """")), Some (mkAction 18535 [Goto 6]));
    (Aug [All (mkAction 18536 [Entity (-1)])] m_newline, Some a_cshtml_ccallback);
    (Aug [All (mkAction 18537 [Entity 5])] (NotChr r_space), Some a_cshtml_ccallback)].

(** clearsilverhtml.rl:98-98 *)
Definition m_ws_or_inl : rx :=
  alts m_ws [Aug [Finish (mkAction 18510 [Entity (-2)]); Leave a_cshtml_ccallback] m_newline].

(** clearsilverhtml.rl:101-101 *)
Definition m_cshtml_css_outry : rx :=
  cats (Lit (bytes "</")) [
    LitI (bytes "style");
    Star m_ws_or_inl;
    Aug [Finish a_check_blank_outry; Finish a_code] (Lit (bytes ">"))].

(** clearsilverhtml.rl:102-110 *)
Definition i_cshtml_css_line : instance :=
  Scanner [
    (Aug [Finish (mkAction 18511 [PTs; Ret])] m_cshtml_css_outry, None);
    (Aug [All (mkAction 18512 [Entity 0])] m_spaces, Some a_css_ccallback);
    (m_css_comment, None);
    (m_css_string, None);
    (Aug [All (mkAction 18513 [Entity (-1)])] m_newline, Some a_css_ccallback);
    (Aug [All (mkAction 18514 [Entity 9])] (NotChr r_space), Some a_css_ccallback)].

(** clearsilverhtml.rl:113-113 *)
Definition m_cshtml_js_outry : rx :=
  cats (Lit (bytes "</")) [
    LitI (bytes "script");
    Star m_ws_or_inl;
    Aug [Finish a_check_blank_outry; Finish a_code] (Lit (bytes ">"))].

(** clearsilverhtml.rl:114-122 *)
Definition i_cshtml_js_line : instance :=
  Scanner [
    (Aug [Finish (mkAction 18515 [PTs; Ret])] m_cshtml_js_outry, None);
    (Aug [All (mkAction 18516 [Entity 0])] m_spaces, Some a_js_ccallback);
    (m_js_comment, None);
    (m_js_string, None);
    (Aug [All (mkAction 18517 [Entity (-1)])] m_newline, Some a_js_ccallback);
    (Aug [All (mkAction 18518 [Entity 7])] (NotChr r_space), Some a_js_ccallback)].

(** clearsilverhtml.rl:125-125 *)
Definition m_cshtml_cs_outry : rx :=
  Aug [Finish a_check_blank_outry; Finish a_code] (Lit (bytes "?>")).

(** clearsilverhtml.rl:126-134 *)
Definition i_cshtml_cs_line : instance :=
  Scanner [
    (Aug [Finish (mkAction 18519 [PTs; Ret])] m_cshtml_cs_outry, None);
    (Aug [All (mkAction 18520 [Entity 0])] m_spaces, Some a_cs_ccallback);
    (m_cs_comment, None);
    (m_cs_string, None);
    (Aug [All (mkAction 18521 [Entity (-1)])] m_newline, Some a_cs_ccallback);
    (Aug [All (mkAction 18522 [Entity 3])] (NotChr r_space), Some a_cs_ccallback)].

(** clearsilverhtml.rl:59-69 *)
Definition i_cshtml_comment : instance :=
  Plain (CatFin (Star (alts (Aug [Leave (mkAction 18501 [Entity (-2)]); Leave a_cshtml_ccallback] m_newline) [
    m_ws;
    Aug [Finish a_comment] (NotChr (alts r_space [Cls [(45, 45); (60, 60)]]));
    cats (Lit (bytes "<")) [
      Aug [Finish (mkAction 18502 [Asaw "CS_LANG"; Call 3])] (Lit (bytes "?cs"))];
    cats (Lit (bytes "<")) [NotStr (Lit (bytes "?cs"))]])) (Aug [Finish a_comment; Finish (mkAction 18503 [Goto 0])] (Lit (bytes "-->")))).

(** clearsilverhtml.rl:71-83 *)
Definition i_cshtml_sq_str : instance :=
  Plain (cats (Star (alts (Aug [Leave (mkAction 18504 [Entity (-2)]); Leave a_cshtml_ccallback] m_newline) [
      m_ws;
      Aug [Finish a_code] (NCls [(9, 10); (12, 13); (32, 32); (39, 39); (60, 60); (92, 92)]);
      cats (Lit (bytes "\")) [Aug [Finish a_code] m_nonnewline];
      cats (Lit (bytes "<")) [
        Aug [Finish (mkAction 18505 [Asaw "CS_LANG"; Call 3])] (Lit (bytes "?cs"))];
      cats (Lit (bytes "<")) [NotStr (Lit (bytes "?cs"))]])) [
    Aug [Finish (mkAction 18506 [Goto 0])] (Lit (bytes "'"))]).

(** clearsilverhtml.rl:84-96 *)
Definition i_cshtml_dq_str : instance :=
  Plain (cats (Star (alts (Aug [Leave (mkAction 18507 [Entity (-2)]); Leave a_cshtml_ccallback] m_newline) [
      m_ws;
      Aug [Finish a_code] (NCls [(9, 10); (12, 13); (32, 32); (34, 34); (60, 60); (92, 92)]);
      cats (Lit (bytes "\")) [Aug [Finish a_code] m_nonnewline];
      cats (Lit (bytes "<")) [
        Aug [Finish (mkAction 18508 [Asaw "CS_LANG"; Call 3])] (Lit (bytes "?cs"))];
      cats (Lit (bytes "<")) [NotStr (Lit (bytes "?cs"))]])) [
    Aug [Finish (mkAction 18509 [Goto 0])] (Lit (bytes """"))]).

(** clearsilverhtml.rl:159-159 *)
Definition m_cshtml_css_entry_entity : rx :=
  cats (CatFin (cats (Lit (bytes "<")) [LitI (bytes "style"); Plus (NCls [(62, 62)])]) (Lit (bytes "text/css"))) [
    Plus (NCls [(62, 62)]);
    Lit (bytes ">")].

(** clearsilverhtml.rl:170-170 *)
Definition m_cshtml_js_entry_entity : rx :=
  cats (CatFin (cats (Lit (bytes "<")) [LitI (bytes "script"); Plus (NCls [(62, 62)])]) (Lit (bytes "text/javascript"))) [
    Plus (NCls [(62, 62)]);
    Lit (bytes ">")].

(** clearsilverhtml.rl:181-181 *)
Definition m_cshtml_cs_entry_entity : rx :=
  Lit (bytes "<?cs").

(** clearsilverhtml.rl:154 *)
Definition a_cshtml_ecallback : action := mkAction 18002 [Report "CSHTML_LANG" ["space"; "comment"; "doctype"; "tag"; "entity"; "any"]].

(** clearsilverhtml.rl:192-192 *)
Definition m_cshtml_comment_entity : rx :=
  CatFin (cats (Lit (bytes "<!--")) [Star r_any]) (Lit (bytes "-->")).

(** clearsilverhtml.rl:194-204 *)
Definition i_cshtml_entity : instance :=
  Scanner [
    (m_cshtml_css_entry_entity, Some (mkAction 18547 [Call 1]));
    (m_cshtml_js_entry_entity, Some (mkAction 18548 [Call 2]));
    (m_cshtml_cs_entry_entity, Some (mkAction 18549 [Call 3]));
    (Aug [All (mkAction 18550 [Entity 0])] (Plus r_space), Some a_cshtml_ecallback);
    (Aug [All (mkAction 18551 [Entity 1])] m_cshtml_comment_entity, Some a_cshtml_ecallback);
    (NotChr r_space, None)].

(** clearsilverhtml.rl:160-160 *)
Definition m_cshtml_css_outry_entity : rx :=
  cats (Lit (bytes "</")) [LitI (bytes "style"); Star m_ws_or_inl; Lit (bytes ">")].

(** clearsilverhtml.rl:161-168 *)
Definition i_cshtml_css_entity : instance :=
  Scanner [
    (Aug [Finish (mkAction 18538 [Ret])] m_cshtml_css_outry_entity, None);
    (Aug [All (mkAction 18539 [Entity 0])] (Plus r_space), Some a_css_ecallback);
    (Aug [All (mkAction 18540 [Entity 1])] m_css_comment_entity, Some a_css_ecallback);
    (NotChr r_space, None)].

(** clearsilverhtml.rl:171-171 *)
Definition m_cshtml_js_outry_entity : rx :=
  cats (Lit (bytes "</")) [LitI (bytes "script"); Star m_ws_or_inl; Lit (bytes ">")].

(** clearsilverhtml.rl:172-179 *)
Definition i_cshtml_js_entity : instance :=
  Scanner [
    (Aug [Finish (mkAction 18541 [Ret])] m_cshtml_js_outry_entity, None);
    (Aug [All (mkAction 18542 [Entity 0])] (Plus r_space), Some a_js_ecallback);
    (Aug [All (mkAction 18543 [Entity 1])] m_js_comment_entity, Some a_js_ecallback);
    (NotChr r_space, None)].

(** clearsilverhtml.rl:182-182 *)
Definition m_cshtml_cs_outry_entity : rx :=
  Lit (bytes "?>").

(** clearsilverhtml.rl:183-190 *)
Definition i_cshtml_cs_entity : instance :=
  Scanner [
    (Aug [Finish (mkAction 18544 [Ret])] m_cshtml_cs_outry_entity, None);
    (Aug [All (mkAction 18545 [Entity 0])] (Plus r_space), Some a_cs_ecallback);
    (Aug [All (mkAction 18546 [Entity 1])] m_cs_comment_entity, Some a_cs_ecallback);
    (NotChr r_space, None)].

Definition the_parser : parser := mkParser [i_cshtml_line; i_cshtml_css_line; i_cshtml_js_line; i_cshtml_cs_line; i_cshtml_comment; i_cshtml_sq_str; i_cshtml_dq_str] "CSHTML_LANG".
Definition the_entities : parser := mkParser [i_cshtml_entity; i_cshtml_css_entity; i_cshtml_js_entity; i_cshtml_cs_entity] "CSHTML_LANG".
