(** Specification of the reports: what a set of files contains. *)
From Coq Require Import ZArith String List Bool.
From Verif Require Import Base LocModel LocSpec ParsedModel ParsedSpec FileDiffSpec.
Import ListNotations.
Open Scope Z_scope.

(** Number of lines of language [g] and kind [kind] (lcode, lcomment, lblank) that
    the parser reports in a file, in a set of files. *)
Definition lines_in (g kind : string) (f : revision) : Z :=
  Z.of_nat (length (events_of g kind (r_events f))).
Definition lines_all (g kind : string) (files : list revision) : Z :=
  zsum (map (lines_in g kind) files).

(** Number of files in which a language occurs. *)
Definition files_with (g : string) (files : list revision) : Z :=
  Z.of_nat (length (filter (fun f => existsb (String.eqb g) (languages f)) files)).

Definition languages_all (files : list revision) : list string :=
  first_occ (concat (map languages files)).

(** The entry of a language. *)
Definition entry (files : list revision) (g : string) : loc :=
  mkLoc g (lines_all g "lcode" files) (lines_all g "lcomment" files)
        (lines_all g "lblank" files) (files_with g files).

Definition events_total (files : list revision) : Z :=
  zsum (map (fun f => Z.of_nat (length (r_events f))) files).

Definition with_lines (l : loc) : loc * Z := (l, l_code l + l_comments l + l_blanks l).

(** Total of a field over the languages. *)
Definition over (f : loc -> Z) (ls : list loc) : Z := zsum (map f ls).
