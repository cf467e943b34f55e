(** Specification of the two finest decisions of the detector: the source form of
    Fortran, and the languages of .m files.  Nothing here refers to the loops of
    detector.c. *)
From Coq Require Import ZArith String List Bool.
From Verif Require Import Base DetectorSpec.
Import ListNotations.
Open Scope string_scope.
Open Scope Z_scope.
Open Scope list_scope.

(** ** Fortran *)

(** The statement part of a line consists of characters that open nothing and of
    quoted parts, up to a comment. *)
Inductive piece : list Z -> Prop :=
| plain_piece c : ~ In c [33; 34; 39] -> piece [c]
| quoted_piece q t : In q [34; 39] -> ~ In q t -> piece (q :: t ++ [q]).

(** [t] stands from column [k] on; an ampersand outside quotes and comments stands in
    the columns 7 to 72: the line is continued as in free format. *)
Definition continued (k : Z) (t : list Z) : Prop :=
  exists ps r, t = concat ps ++ 38 :: r /\ Forall piece ps /\
    7 <= k + Z.of_nat (length (concat ps)) <= 72.

(** In column 6 an exclamation mark is no comment. *)
Definition column6 (t : list Z) : list Z := match t with 33 :: r => 32 :: r | _ => t end.

(** A statement in fixed format: columns 1 to 5 are blanks and digits (a tabulator
    stands for all of them); then a comment, or column 6, which says whether the line
    continues one before (it must not if there is a label), and the text. *)
Definition fixed_statement (l : list Z) : Prop :=
  exists c label rest, l = c :: label ++ rest /\ (Blank c \/ Digit c) /\
    Forall (fun d => d = 32 \/ Digit d) label /\
    let column := (if c =? 9 then 5 else 1) + Z.of_nat (length label) in
    (column < 5 /\ begins [33] rest)
    \/ (column = 5 /\
        ((Blank c /\ Forall (fun d => d = 32) label) \/ begins [32] rest \/ begins [48] rest) /\
        ~ continued 6 (column6 rest)).

Definition fixed_format (t : list Z) : Prop :=
  (forall c r, t = c :: r -> ~ Newline c) /\
  forall l, In l (lines t) -> l = [] \/ comment_line l \/ fixed_statement l.

(** ** .m *)

(** The sum of numbers that belong to the lines. *)
Inductive total (R : list Z -> Z -> Prop) : list (list Z) -> Z -> Prop :=
| total_nil : total R [] 0
| total_cons l ls n m : R l n -> total R ls m -> total R (l :: ls) (n + m).

(** [n] = 1 if [P] holds and 0 otherwise. *)
Definition one_if (P : Prop) (n : Z) : Prop := (P /\ n = 1) \/ (~ P /\ n = 0).

(** All that remains of a text from some place on. *)
Fixpoint ends {A} (l : list A) : list (list A) :=
  match l with
  | [] => []
  | x :: r => l :: ends r
  end.

(** What the first visible characters of a line say. *)
Definition starts_with (lits : list string) (l : list Z) : Prop :=
  exists p lit, stripped l p /\ In lit lits /\ begins (bytes lit) p.
(** A comment of Octave or Limbo: number signs and a blank. *)
Definition hash_comment (l : list Z) : Prop :=
  exists h b, stripped l (h ++ b) /\ h <> [] /\ Forall (eq 35) h /\ (begins [32] b \/ begins [9] b).
(** A function of Matlab without result: "function (". *)
Definition nameless (l : list Z) : Prop :=
  exists w r, stripped l (bytes "function" ++ w ++ 40 :: r) /\ Forall Blank w.

Definition matlab_line (l : list Z) : Prop :=
  starts_with ["%"] l \/ hash_comment l \/ nameless l.
Definition objc_line (l : list Z) : Prop :=
  starts_with ["#import"; "//"; "/*"; "+"; "-"; "@implementation"; "@interface"] l.

(** A keyword of Octave that stands alone.  [strictly] excludes an underscore before. *)
Definition octave_word (strictly : bool) (l : list Z) : Prop :=
  exists a x w b, l = a ++ x :: bytes w ++ b /\
    In w ["end_try_catch"; "end_unwind_protect"; "endfunction"; "endwhile"] /\
    ~ Alnum x /\ (strictly = true -> x <> 95) /\ (forall c r, b = c :: r -> ~ Word c).

(** A declaration of Limbo begins. *)
Definition declaration (p : list Z) : Prop :=
  (exists w b, In w ["module"; "adt"] /\ p = bytes w ++ b /\ (forall c r, b = c :: r -> ~ Alnum c))
  \/ begins (bytes "fn(") p \/ begins (bytes "fn (") p
  \/ (exists b, Blank b /\ begins (bytes "con" ++ [b]) p).
Definition declares (p : list Z) : Prop := exists b q, p = 58 :: b :: q /\ Blank b /\ declaration q.

(** An operator of Mathematica begins. *)
Definition operator (p : list Z) : Prop :=
  exists o, In o ["(*"; "/."; "__"; "@@"] /\ begins (bytes o) p.
(** The number of ampersands before a comma or a closing bracket, not counting one
    that stands after another one. *)
Inductive postfix : list Z -> Z -> Prop :=
| post_end : postfix [] 0
| post_other c r n : c <> 38 -> postfix r n -> postfix (c :: r) n
| post_yes b x r n : Forall Blank b -> In x [44; 41; 93] -> postfix r n -> postfix (38 :: b ++ x :: r) (1 + n)
| post_no b x r n : Forall Blank b -> ~ Blank x -> ~ In x [44; 41; 93] -> postfix r n -> postfix (38 :: b ++ x :: r) n
| post_last b : Forall Blank b -> postfix (38 :: b) 0.

Definition limbo_points (l : list Z) (n : Z) : Prop :=
  exists a b, one_if (hash_comment l) a /\ count declares (ends l) b /\ n = a + b.
Definition mathematica_points (l : list Z) (n : Z) : Prop :=
  exists a b, count operator (ends l) a /\ postfix l b /\ n = a + b.
Definition matlab_points (l : list Z) (n : Z) : Prop := one_if (matlab_line l) n.
Definition objc_points (l : list Z) (n : Z) : Prop := one_if (objc_line l) n.

(** The directory has a header and no C file.  (Only a header that is called ".h" is
    seen, and of the shorter extensions only files that have no name.) *)
Definition c_file (n : list Z) : Prop :=
  (exists a e, In e [".cpp"; ".c++"; ".cxx"] /\ n = a ++ bytes e)
  \/ exists e, In e [".cc"; ".c"; ".C"] /\ n = bytes e.
Definition headers_only (dir : option (list (list Z))) : Prop :=
  exists names, dir = Some names /\ In (bytes ".h") names /\ forall n, In n names -> ~ c_file n.
