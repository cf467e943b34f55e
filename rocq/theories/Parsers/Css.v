(** Transcription of /repo/src/parsers/css.rl: the line counting machine and the
    entity machine (written by tools/ragel/gen.py). *)
From Coq Require Import ZArith String List.
From Verif Require Import Base RagelSyntax.
From Verif.Parsers Require Import Common.
Import ListNotations.
Open Scope string_scope.
Open Scope Z_scope.
Open Scope list_scope.

(** css.rl:33 *)
Definition a_css_ccallback : action := mkAction 24001 [Switch [(0, Mls); (9, Mcode); ((-2), Minl "CSS_LANG"); ((-1), Mnl "CSS_LANG")]].

(** css.rl:49-56 *)
Definition m_css_comment : rx :=
  CatFin (cats (Aug [Finish a_comment] (Lit (bytes "/*"))) [
    Star (alts (Aug [Leave (mkAction 24501 [Entity (-2)]); Leave a_css_ccallback] m_newline) [
      m_ws;
      Aug [Finish a_comment] (Diff m_nonnewline m_ws)])]) (Lit (bytes "*/")).

(** css.rl:58-67 *)
Definition m_css_sq_str : rx :=
  cats (Aug [Finish a_code] (Lit (bytes "'"))) [
    Star (alts (Aug [Leave (mkAction 24502 [Entity (-2)]); Leave a_css_ccallback] m_newline) [
      m_ws;
      Aug [Finish a_code] (NCls [(9, 10); (12, 13); (32, 32); (39, 39); (92, 92)]);
      cats (Lit (bytes "\")) [Aug [Finish a_code] m_nonnewline]]);
    Lit (bytes "'")].

(** css.rl:68-77 *)
Definition m_css_dq_str : rx :=
  cats (Aug [Finish a_code] (Lit (bytes """"))) [
    Star (alts (Aug [Leave (mkAction 24503 [Entity (-2)]); Leave a_css_ccallback] m_newline) [
      m_ws;
      Aug [Finish a_code] (NCls [(9, 10); (12, 13); (32, 32); (34, 34); (92, 92)]);
      cats (Lit (bytes "\")) [Aug [Finish a_code] m_nonnewline]]);
    Lit (bytes """")].

(** css.rl:78-78 *)
Definition m_css_string : rx :=
  alts m_css_sq_str [m_css_dq_str].

(** css.rl:80-86 *)
Definition i_css_line : instance :=
  Scanner [
    (Aug [All (mkAction 24504 [Entity 0])] m_spaces, Some a_css_ccallback);
    (m_css_comment, None);
    (m_css_string, None);
    (Aug [All (mkAction 24505 [Entity (-1)])] m_newline, Some a_css_ccallback);
    (Aug [All (mkAction 24506 [Entity 9])] (NotChr r_space), Some a_css_ccallback)].

(** css.rl:90 *)
Definition a_css_ecallback : action := mkAction 24002 [Report "CSS_LANG" ["space"; "comment"; "string"; "at_rule"; "selector"; "value"; "unit"; "color"; "url"; "any"]].

(** css.rl:94-94 *)
Definition m_css_comment_entity : rx :=
  CatFin (cats (Lit (bytes "/*")) [Star r_any]) (Lit (bytes "*/")).

(** css.rl:96-101 *)
Definition i_css_entity : instance :=
  Scanner [
    (Aug [All (mkAction 24507 [Entity 0])] (Plus r_space), Some a_css_ecallback);
    (Aug [All (mkAction 24508 [Entity 1])] m_css_comment_entity, Some a_css_ecallback);
    (NotChr r_space, None)].

Definition the_parser : parser := mkParser [i_css_line] "CSS_LANG".
Definition the_entities : parser := mkParser [i_css_entity] "CSS_LANG".
