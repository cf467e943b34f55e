(** Transcription of /repo/src/parsers/perl.rl: the line counting machine and the
    entity machine (written by tools/ragel/gen.py). *)
From Coq Require Import ZArith String List.
From Verif Require Import Base RagelSyntax.
From Verif.Parsers Require Import Common.
Import ListNotations.
Open Scope string_scope.
Open Scope Z_scope.
Open Scope list_scope.

(** perl.rl:31 *)
Definition a_perl_ccallback : action := mkAction 77001 [Switch [(0, Mls); (3, Mcode); ((-2), Minl "PERL_LANG"); ((-1), Mnl "PERL_LANG")]].

(** perl.rl:47-47 *)
Definition m_perl_line_comment : rx :=
  cats (Aug [Finish a_comment] (Lit (bytes "#"))) [Star m_nonnewline].

(** perl.rl:48-57 *)
Definition m_perl_block_comment : rx :=
  cats (Aug [When StartsLine true; Finish a_enqueue; Finish a_comment] (Lit (bytes "="))) [
    Plus m_nonnewline;
    Aug [FinalEof a_commit] (Star (alts (cats (Aug [When StartsLine true] (Lit (bytes "="))) [
        Aug [Finish a_commit; Finish a_comment; Finish (mkAction 77501 [Goto 0])] (Lit (bytes "cut"))]) [
      Aug [Leave (mkAction 77502 [Entity (-2)]); Leave a_perl_ccallback] m_newline;
      m_ws;
      Aug [Finish a_comment] (NotChr r_space)]))].

(** perl.rl:58-58 *)
Definition m_perl_comment : rx :=
  alts m_perl_line_comment [m_perl_block_comment].

(** perl.rl:60-69 *)
Definition m_perl_sq_str : rx :=
  cats (Aug [Finish a_enqueue; Finish a_code] (Lit (bytes "'"))) [
    Star (alts (Aug [Leave (mkAction 77503 [Entity (-2)]); Leave a_perl_ccallback] m_newline) [
      m_ws;
      Aug [Finish a_code] (NCls [(9, 10); (12, 13); (32, 32); (39, 39); (92, 92)]);
      cats (Lit (bytes "\")) [Aug [Finish a_code] m_nonnewline]]);
    Aug [Finish a_commit; Finish a_code] (Lit (bytes "'"))].

(** perl.rl:70-79 *)
Definition m_perl_dq_str : rx :=
  cats (Aug [Finish a_enqueue; Finish a_code] (Lit (bytes """"))) [
    Star (alts (Aug [Leave (mkAction 77504 [Entity (-2)]); Leave a_perl_ccallback] m_newline) [
      m_ws;
      Aug [Finish a_code] (NCls [(9, 10); (12, 13); (32, 32); (34, 34); (92, 92)]);
      cats (Lit (bytes "\")) [Aug [Finish a_code] m_nonnewline]]);
    Aug [Finish a_commit; Finish a_code] (Lit (bytes """"))].

(** perl.rl:80-89 *)
Definition m_perl_cmd_str : rx :=
  cats (Aug [Finish a_enqueue; Finish a_code] (Lit (bytes "`"))) [
    Star (alts (Aug [Leave (mkAction 77505 [Entity (-2)]); Leave a_perl_ccallback] m_newline) [
      m_ws;
      Aug [Finish a_code] (NCls [(9, 10); (12, 13); (32, 32); (92, 92); (96, 96)]);
      cats (Lit (bytes "\")) [Aug [Finish a_code] m_nonnewline]]);
    Aug [Finish a_commit; Finish a_code] (Lit (bytes "`"))].

(** perl.rl:90-90 *)
Definition m_perl_regex : rx :=
  cats (Lit (bytes "/")) [
    Star (alts (NCls [(10, 10); (12, 13); (47, 47); (92, 92)]) [cats (Lit (bytes "\")) [m_nonnewline]]);
    Aug [Finish a_code] (Lit (bytes "/"))].

(** perl.rl:95-95 *)
Definition m_perl_string : rx :=
  alts m_perl_sq_str [m_perl_dq_str; m_perl_cmd_str; m_perl_regex].

(** perl.rl:97-104 *)
Definition i_perl_line : instance :=
  Scanner [
    (Aug [All (mkAction 77506 [Entity 0])] m_spaces, Some a_perl_ccallback);
    (m_perl_comment, None);
    (m_perl_string, None);
    (Aug [All (mkAction 77507 [Entity (-1)])] m_newline, Some a_perl_ccallback);
    (Aug [When StartsLine false] (Lit (bytes "=")), None);
    (Aug [All (mkAction 77508 [Entity 3])] (NotChr (alts r_space [Lit (bytes "=")])), Some a_perl_ccallback)].

(** perl.rl:108 *)
Definition a_perl_ecallback : action := mkAction 77002 [Report "PERL_LANG" ["space"; "comment"; "string"; "any"]].

(** perl.rl:112-112 *)
Definition m_perl_line_comment_entity : rx :=
  cats (Lit (bytes "#")) [Star m_nonnewline].

(** perl.rl:113-114 *)
Definition m_perl_block_comment_entity : rx :=
  CatFin (cats (Aug [When StartsLine true] (Lit (bytes "="))) [Plus r_alpha; Star r_any]) (cats (Aug [When StartsLine true] (Lit (bytes "="))) [Lit (bytes "cut")]).

(** perl.rl:115-115 *)
Definition m_perl_comment_entity : rx :=
  alts m_perl_line_comment_entity [m_perl_block_comment_entity].

(** perl.rl:117-122 *)
Definition i_perl_entity : instance :=
  Scanner [
    (Aug [All (mkAction 77509 [Entity 0])] (Plus r_space), Some a_perl_ecallback);
    (Aug [All (mkAction 77510 [Entity 1])] m_perl_comment_entity, Some a_perl_ecallback);
    (NotChr r_space, None)].

Definition the_parser : parser := mkParser [i_perl_line] "PERL_LANG".
Definition the_entities : parser := mkParser [i_perl_entity] "PERL_LANG".
