(** Transcription of /repo/src/parsers/haml.rl: the line counting machine and the
    entity machine (written by tools/ragel/gen.py). *)
From Coq Require Import ZArith String List.
From Verif Require Import Base RagelSyntax.
From Verif.Parsers Require Import Common Ruby.
Import ListNotations.
Open Scope string_scope.
Open Scope Z_scope.
Open Scope list_scope.

(** haml.rl:66-66 *)
Definition m_haml_ruby_evaluator : rx :=
  alts (Lit (bytes "==")) [
    cats (Opt (Cls [(33, 33); (38, 38)])) [Lit (bytes "=")];
    Lit (bytes "-");
    Lit (bytes "~")].

(** haml.rl:60 *)
Definition a_bracket_level_res : action := mkAction 43007 [VarSet 6 0].

(** haml.rl:36 *)
Definition a_haml_ccallback : action := mkAction 43001 [Switch [(0, Mls); (7, Mcode); ((-2), Membinl "HAML_LANG"); ((-1), Membnl "HAML_LANG"); ((-3), Mblank "HAML_LANG")]].

(** haml.rl:58 *)
Definition a_bracket_inc : action := mkAction 43005 [VarAdd 6 1].

(** haml.rl:59 *)
Definition a_bracket_dec : action := mkAction 43006 [VarAdd 6 (-1)].

(** haml.rl:69-92 *)
Definition m_haml_xhtml_tag_modifier : rx :=
  alts (CatFin (cats (Aug [Enter a_bracket_level_res; Finish a_code] (Lit (bytes "{"))) [
      Star (alts (Aug [Leave (mkAction 43501 [Entity (-2)]); Leave a_haml_ccallback] m_newline) [
        m_ws;
        Aug [Finish a_code] (Diff (Diff m_nonnewline m_ws) (Cls [(123, 123); (125, 125)]));
        Aug [Finish a_bracket_inc] (Lit (bytes "{"));
        Aug [Finish a_bracket_dec] (Lit (bytes "}"))])]) (Aug [Finish a_code] (Aug [When (IsZero 6) true] (Lit (bytes "}"))))) [
    CatFin (cats (Aug [Enter a_bracket_level_res; Finish a_code] (Lit (bytes "["))) [
      Star (alts (Aug [Leave (mkAction 43503 [Entity (-2)]); Leave a_haml_ccallback] m_newline) [
        m_ws;
        Aug [Finish a_bracket_inc] (Lit (bytes "["));
        Aug [Finish a_bracket_dec] (Lit (bytes "]"));
        Aug [Finish a_code] (Diff (Diff (Diff m_nonnewline m_ws) (Lit (bytes "["))) (Lit (bytes "]")))])]) (Aug [Finish a_code] (Aug [When (IsZero 6) true] (Lit (bytes "]"))))].

(** haml.rl:94-94 *)
Definition m_haml_xhtml_tag : rx :=
  cats (Lit (bytes "%")) [
    Diff (Plus (Diff (Diff (Diff m_nonnewline m_ws) (Lit (bytes "["))) (Lit (bytes "{")))) m_haml_ruby_evaluator;
    Opt m_haml_xhtml_tag_modifier;
    Opt (Lit (bytes "//"))].

(** haml.rl:124-127 *)
Definition m_haml_ruby_entry : rx :=
  cats (Star (Rep 2 (Cls [(32, 32)]))) [
    Opt m_haml_xhtml_tag;
    m_haml_ruby_evaluator;
    Aug [Finish a_code] m_ws].

(** haml.rl:56 *)
Definition a_haml_indent_level_res : action := mkAction 43003 [VarSet 5 0].

(** haml.rl:55 *)
Definition a_haml_indent_level_inc : action := mkAction 43002 [VarAdd 5 1].

(** haml.rl:62-62 *)
Definition m_haml_indent : rx :=
  Aug [Finish a_haml_indent_level_inc] (Rep 2 (Cls [(32, 32)])).

(** haml.rl:63-63 *)
Definition m_haml_indent_init : rx :=
  cats (Opt (Aug [Enter a_haml_indent_level_res; Finish a_haml_indent_level_inc] (Rep 2 (Cls [(32, 32)])))) [
    Star m_haml_indent].

(** haml.rl:57 *)
Definition a_haml_indent_level_set : action := mkAction 43004 [VarCopy 4 5].

(** haml.rl:67-67 *)
Definition m_haml_comment_delimiter : rx :=
  alts (Lit (bytes "-#")) [Lit (bytes "/")].

(** haml.rl:64-64 *)
Definition m_haml_eol : rx :=
  Aug [Enter a_haml_indent_level_res] m_newline.

(** haml.rl:96-100 *)
Definition m_haml_block_line_transition : rx :=
  cats (Aug [Leave (mkAction 43505 [Entity (-2)]); Leave a_haml_ccallback] m_haml_eol) [
    Star (Aug [Leave (mkAction 43506 [Entity (-2)]); Leave a_haml_ccallback] m_newline);
    Star (Aug [When (Less 5 4) true; Finish a_haml_indent_level_inc] (Rep 2 (Cls [(32, 32)])));
    Plus (Aug [When (Less 5 4) false; Finish a_haml_indent_level_inc] (Rep 2 (Cls [(32, 32)])))].

(** haml.rl:102-109 *)
Definition m_haml_block_comment : rx :=
  cats m_haml_indent_init [
    Aug [Enter a_haml_indent_level_set; Finish a_comment] m_haml_comment_delimiter;
    Star (alts m_haml_block_line_transition [m_ws; Aug [Finish a_comment] (Diff m_nonnewline m_ws)])].

(** haml.rl:111-111 *)
Definition m_haml_comment : rx :=
  m_haml_block_comment.

(** haml.rl:113-122 *)
Definition m_haml_string : rx :=
  cats (Star m_haml_indent) [
    Aug [Finish a_code] (Diff (Diff (Diff (Diff (Diff (Diff m_nonnewline m_haml_comment_delimiter) m_haml_ruby_evaluator) (Lit (bytes "."))) (Lit (bytes "#"))) (Lit (bytes "%"))) (Cls [(32, 32)]));
    Star (alts (Aug [Finish a_code] m_nonnewline) [
      cats (Aug [Finish a_code] (Lit (bytes "|"))) [
        Aug [Leave (mkAction 43509 [Entity (-2)])] m_newline]])].

(** haml.rl:142-149 *)
Definition i_haml_line : instance :=
  Scanner [
    (Aug [Finish (mkAction 43516 [Entity (-3)]); Finish (mkAction 43517 [Asaw "RUBY_LANG"])] m_haml_ruby_entry, Some (mkAction 43518 [Call 1]));
    (Aug [All (mkAction 43519 [Entity 0])] m_spaces, Some a_haml_ccallback);
    (m_haml_comment, None);
    (m_haml_string, None);
    (Aug [All (mkAction 43520 [Entity (-1)])] m_newline, Some a_haml_ccallback);
    (Aug [All (mkAction 43521 [Entity 7])] (NotChr r_space), Some a_haml_ccallback)].

(** haml.rl:129-131 *)
Definition m_haml_ruby_outry : rx :=
  cats (Aug [Leave (mkAction 43510 [Entity (-2)]); Leave a_haml_ccallback] m_newline) [
    Aug [Finish (mkAction 43511 [Hold])] r_any].

(** haml.rl:133-140 *)
Definition i_haml_ruby_line : instance :=
  Scanner [
    (Aug [Finish (mkAction 43512 [PTs; Ret])] m_haml_ruby_outry, None);
    (Aug [All (mkAction 43513 [Entity 0])] m_spaces, Some a_ruby_ccallback);
    (m_ruby_comment, None);
    (m_ruby_string, None);
    (Aug [All (mkAction 43514 [Entity (-1)])] m_newline, Some a_ruby_ccallback);
    (Aug [All (mkAction 43515 [Entity 3])] (NotChr r_space), Some a_ruby_ccallback)].

(** haml.rl:153 *)
Definition a_haml_ecallback : action := mkAction 43008 [Report "HAML_LANG" ["space"; "comment"; "string"; "element"; "element_class"; "element_id"; "evaluator"; "any"]].

(** haml.rl:157-157 *)
Definition m_haml_element_entity : rx :=
  cats (Lit (bytes "%")) [Plus r_alnum].

(** haml.rl:158-158 *)
Definition m_haml_element_class_entity : rx :=
  cats (Lit (bytes ".")) [Plus r_alnum].

(** haml.rl:159-159 *)
Definition m_haml_element_id_entity : rx :=
  cats (Lit (bytes "#")) [Plus r_alnum].

(** haml.rl:170-170 *)
Definition m_haml_evaluator_entity : rx :=
  m_haml_ruby_evaluator.

(** haml.rl:161-168 *)
Definition m_haml_string_entity : rx :=
  cats (Diff (Diff (Diff (Diff (Diff (Diff m_nonnewline m_haml_comment_delimiter) m_haml_ruby_evaluator) (Lit (bytes "."))) (Lit (bytes "#"))) (Lit (bytes "%"))) (Cls [(32, 32)])) [
    Star (alts m_nonnewline [cats (Lit (bytes "|")) [m_newline]])].

(** haml.rl:174-182 *)
Definition i_haml_entity : instance :=
  Scanner [
    (Aug [All (mkAction 43522 [Entity 0])] (Plus r_space), Some a_haml_ecallback);
    (Aug [All (mkAction 43523 [Entity 3])] m_haml_element_entity, Some a_haml_ecallback);
    (Aug [All (mkAction 43524 [Entity 4])] m_haml_element_class_entity, Some a_haml_ecallback);
    (Aug [All (mkAction 43525 [Entity 5])] m_haml_element_id_entity, Some a_haml_ecallback);
    (Aug [All (mkAction 43526 [Entity 6])] m_haml_evaluator_entity, Some a_haml_ecallback);
    (Aug [All (mkAction 43527 [Entity 2])] m_haml_string_entity, Some a_haml_ecallback);
    (Aug [All (mkAction 43528 [Entity 7])] (NotChr r_space), Some a_haml_ecallback)].

Definition the_parser : parser := mkParser [i_haml_line; i_haml_ruby_line] "HAML_LANG".
Definition the_entities : parser := mkParser [i_haml_entity] "HAML_LANG".
