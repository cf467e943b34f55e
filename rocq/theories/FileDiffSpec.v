(** Specification of the diff of two revisions of a file. *)
From Coq Require Import ZArith String List Bool.
From Verif Require Import Base LocModel LocSpec ParsedModel ParsedSpec.
Import ListNotations.
Open Scope Z_scope.

(** A revision: its text and the lines the parser reports for it. *)
Record revision := mkRev { r_text : list Z; r_events : list event }.

(** All code lines of a language, without leading blanks; its comment lines; the
    number of its blank lines. *)
Definition code_text (r : revision) (g : string) : list Z :=
  concat (lines_of (r_text r) g "lcode" (r_events r)).
Definition comment_text (r : revision) (g : string) : list Z :=
  concat (lines_of (r_text r) g "lcomment" (r_events r)).
Definition blank_lines (r : revision) (g : string) : Z :=
  Z.of_nat (length (events_of g "lblank" (r_events r))).

Definition languages (r : revision) : list string := map e_lang (r_events r).

(** The lines of each kind fit in the file (so no line is lost, see C16). *)
Definition fits (text : list Z) (es : list event) : Prop :=
  (forall g, volume (lines_of text g "lcode" es) <= Z.of_nat (length text) + 4) /\
  (forall g, volume (lines_of text g "lcomment" es) <= Z.of_nat (length text) + 4).

Definition good_revision (r : revision) : Prop :=
  ~ In 0 (r_text r) /\ Z.of_nat (length (r_text r)) + 5 <= int_max /\
  Z.of_nat (length (r_events r)) <= int_max /\ Forall (good_event (r_text r)) (r_events r) /\
  fits (r_text r) (r_events r).

(** The texts that are compared in memory (diff.c: at most 100000 bytes). *)
Definition small_texts (r : revision) : Prop :=
  forall g, Z.of_nat (length (code_text r g)) <= 100000 /\ Z.of_nat (length (comment_text r g)) <= 100000.

Definition swap (d : delta) : delta :=
  mkDelta (d_lang d) (d_code_removed d) (d_code_added d) (d_comments_removed d) (d_comments_added d)
          (d_blanks_removed d) (d_blanks_added d).
