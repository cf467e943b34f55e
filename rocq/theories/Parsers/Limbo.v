(** Transcription of /repo/src/parsers/limbo.rl: the line counting machine and the
    entity machine (written by tools/ragel/gen.py). *)
From Coq Require Import ZArith String List.
From Verif Require Import Base RagelSyntax.
From Verif.Parsers Require Import Common.
Import ListNotations.
Open Scope string_scope.
Open Scope Z_scope.
Open Scope list_scope.

(** limbo.rl:34 *)
Definition a_limbo_ccallback : action := mkAction 54001 [Switch [(0, Mls); (7, Mcode); ((-2), Minl "LIMBO_LANG"); ((-1), Mnl "LIMBO_LANG")]].

(** limbo.rl:50-50 *)
Definition m_limbo_comment : rx :=
  cats (Aug [Finish a_comment] (Lit (bytes "#"))) [Star m_nonnewline].

(** limbo.rl:52-57 *)
Definition m_limbo_sq_str : rx :=
  cats (Aug [Finish a_code] (Lit (bytes "'"))) [
    Star (alts (Aug [Finish a_code] (NCls [(9, 10); (12, 13); (32, 32); (39, 39); (92, 92)])) [
      cats (Lit (bytes "\")) [Aug [Finish a_code] m_nonnewline]]);
    Aug [Finish a_commit] (Lit (bytes "'"))].

(** limbo.rl:58-63 *)
Definition m_limbo_dq_str : rx :=
  cats (Aug [Finish a_enqueue; Finish a_code] (Lit (bytes """"))) [
    Star (alts (Aug [Finish a_code] (NCls [(9, 10); (12, 13); (32, 32); (34, 34); (92, 92)])) [
      cats (Lit (bytes "\")) [Aug [Finish a_code] m_nonnewline]]);
    Aug [Finish a_commit] (Lit (bytes """"))].

(** limbo.rl:64-64 *)
Definition m_limbo_string : rx :=
  alts m_limbo_sq_str [m_limbo_dq_str].

(** limbo.rl:66-72 *)
Definition i_limbo_line : instance :=
  Scanner [
    (Aug [All (mkAction 54501 [Entity 0])] m_spaces, Some a_limbo_ccallback);
    (m_limbo_comment, None);
    (m_limbo_string, None);
    (Aug [All (mkAction 54502 [Entity (-1)])] m_newline, Some a_limbo_ccallback);
    (Aug [All (mkAction 54503 [Entity 7])] (NotChr r_space), Some a_limbo_ccallback)].

(** limbo.rl:76 *)
Definition a_limbo_ecallback : action := mkAction 54002 [Report "LIMBO_LANG" ["space"; "comment"; "string"; "number"; "keyword"; "identifier"; "operator"; "any"]].

(** limbo.rl:80-80 *)
Definition m_limbo_comment_entity : rx :=
  cats (Lit (bytes "#")) [Star m_nonnewline].

(** limbo.rl:83-83 *)
Definition m_limbo_string_entity : rx :=
  alts m_sq_str_with_escapes [m_dq_str_with_escapes].

(** limbo.rl:86-86 *)
Definition m_limbo_number_entity : rx :=
  alts m_float [m_integer].

(** limbo.rl:91-100 *)
Definition m_limbo_keyword_entity : rx :=
  alts (Lit (bytes "alt")) [
    Lit (bytes "break");
    Lit (bytes "continue");
    Lit (bytes "exit");
    Lit (bytes "return");
    Lit (bytes "spawn");
    Lit (bytes "implement");
    Lit (bytes "import");
    Lit (bytes "load");
    Lit (bytes "raise");
    cats (Lit (bytes "raises")) [Lit (bytes "include")];
    Lit (bytes "array");
    Lit (bytes "big");
    Lit (bytes "byte");
    Lit (bytes "chan");
    Lit (bytes "con");
    Lit (bytes "int");
    Lit (bytes "list");
    Lit (bytes "real");
    Lit (bytes "string");
    Lit (bytes "fn");
    Lit (bytes "adt");
    Lit (bytes "pick");
    Lit (bytes "module");
    Lit (bytes "for");
    Lit (bytes "while");
    Lit (bytes "do");
    Lit (bytes "if");
    Lit (bytes "else");
    Lit (bytes "case");
    Lit (bytes "or");
    Lit (bytes "to");
    Lit (bytes "=>");
    Lit (bytes "ref");
    Lit (bytes "self");
    Lit (bytes "cyclic");
    Lit (bytes "type");
    Lit (bytes "of");
    Lit (bytes "tl");
    Lit (bytes "hd");
    Lit (bytes "len");
    Lit (bytes "tagof");
    Lit (bytes "nil")].

(** limbo.rl:89-89 *)
Definition m_limbo_identifier_entity : rx :=
  cats (alts r_alpha [Lit (bytes "_")]) [Star (alts r_alnum [Lit (bytes "_")])].

(** limbo.rl:102-102 *)
Definition m_limbo_operator_entity : rx :=
  Cls [(33, 33); (37, 38); (40, 47); (58, 59); (61, 62); (91, 91); (93, 94); (123, 126)].

(** limbo.rl:104-113 *)
Definition i_limbo_entity : instance :=
  Scanner [
    (Aug [All (mkAction 54504 [Entity 0])] (Plus r_space), Some a_limbo_ecallback);
    (Aug [All (mkAction 54505 [Entity 1])] m_limbo_comment_entity, Some a_limbo_ecallback);
    (Aug [All (mkAction 54506 [Entity 2])] m_limbo_string_entity, Some a_limbo_ecallback);
    (Aug [All (mkAction 54507 [Entity 3])] m_limbo_number_entity, Some a_limbo_ecallback);
    (Aug [All (mkAction 54508 [Entity 4])] m_limbo_keyword_entity, Some a_limbo_ecallback);
    (Aug [All (mkAction 54509 [Entity 5])] m_limbo_identifier_entity, Some a_limbo_ecallback);
    (Aug [All (mkAction 54510 [Entity 6])] m_limbo_operator_entity, Some a_limbo_ecallback);
    (Aug [All (mkAction 54511 [Entity 8])] (NotChr (alts r_space [r_digit])), Some a_limbo_ecallback)].

Definition the_parser : parser := mkParser [i_limbo_line] "LIMBO_LANG".
Definition the_entities : parser := mkParser [i_limbo_entity] "LIMBO_LANG".
