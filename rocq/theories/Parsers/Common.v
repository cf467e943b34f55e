(** Transcription of /repo/src/parsers/common.rl (written by tools/ragel/gen.py). *)
From Coq Require Import ZArith String List.
From Verif Require Import Base RagelSyntax.
Import ListNotations.
Open Scope string_scope.
Open Scope Z_scope.
Open Scope list_scope.

(** common.rl:65 *)
Definition a_check_blank_outry : action := mkAction 6 [Aoutry].

(** common.rl:53 *)
Definition a_code : action := mkAction 4 [Acode].

(** common.rl:58 *)
Definition a_comment : action := mkAction 5 [Acomment].

(** common.rl:41 *)
Definition a_commit : action := mkAction 2 [Acommit].

(** common.rl:30 *)
Definition a_enqueue : action := mkAction 1 [Aenqueue].

(** common.rl:15-15 *)
Definition m_dec_num : rx :=
  Plus r_digit.

(** common.rl:24-24 *)
Definition m_dq_str : rx :=
  cats (Lit (bytes """")) [Star (NCls [(34, 34)]); Lit (bytes """")].

(** common.rl:26-26 *)
Definition m_dq_str_with_escapes : rx :=
  cats (Lit (bytes """")) [
    Star (alts (NCls [(34, 34); (92, 92)]) [cats (Lit (bytes "\")) [r_any]]);
    Lit (bytes """")].

(** common.rl:9-9 *)
Definition m_newline : rx :=
  alts (Lit [13; 10]) [Lit [10]; Lit [12]; Aug [When CrAlone true] (Lit [13])].

(** common.rl:10-10 *)
Definition m_escaped_newline : rx :=
  cats (Lit (bytes "\")) [m_newline].

(** common.rl:19-20 *)
Definition m_float : rx :=
  cats (Opt (Cls [(43, 43); (45, 45)])) [
    alts (cats (Star r_digit) [Lit (bytes "."); Plus r_digit]) [
      cats (Plus r_digit) [Lit (bytes "."); Star r_digit];
      Plus r_digit];
    Cls [(69, 69); (101, 101)];
    Opt (Cls [(43, 43); (45, 45)]);
    Plus r_digit].

(** common.rl:16-16 *)
Definition m_hex_num : rx :=
  cats (Lit [0]) [Cls [(88, 88); (120, 120)]; Plus (Cls [(48, 57); (65, 70); (97, 102)])].

(** common.rl:17-17 *)
Definition m_oct_num : rx :=
  cats (Lit [0]) [Plus (Cls [(48, 55)])].

(** common.rl:18-18 *)
Definition m_integer : rx :=
  cats (Opt (Cls [(43, 43); (45, 45)])) [alts m_hex_num [m_oct_num; m_dec_num]].

(** common.rl:11-11 *)
Definition m_nonnewline : rx :=
  Diff r_any (Cls [(10, 10); (12, 13)]).

(** common.rl:8-8 *)
Definition m_spaces : rx :=
  Plus (Cls [(9, 9); (32, 32)]).

(** common.rl:23-23 *)
Definition m_sq_str : rx :=
  cats (Lit (bytes "'")) [Star (NCls [(39, 39)]); Lit (bytes "'")].

(** common.rl:25-25 *)
Definition m_sq_str_with_escapes : rx :=
  cats (Lit (bytes "'")) [
    Star (alts (NCls [(39, 39); (92, 92)]) [cats (Lit (bytes "\")) [r_any]]);
    Lit (bytes "'")].

(** common.rl:7-7 *)
Definition m_ws : rx :=
  Cls [(9, 9); (32, 32)].
