(** Specification of what is recorded of the lines that a parser reports, for any file: the
    record of a language has room for as many bytes of code, and of comments, as the file
    has, and a line that does not fit is passed over (C16). *)
From Coq Require Import ZArith String List Bool.
From Verif Require Import Base ParsedModel ParsedSpec.
Import ListNotations.
Open Scope string_scope.
Open Scope Z_scope.
Open Scope list_scope.

(** The report fits after the reports [done]. *)
Definition has_room (text : list Z) (done : list event) (e : event) : bool :=
  String.eqb (e_entity e) "lblank" ||
  (volume (lines_of text (e_lang e) (e_entity e) done ++ [strip_blanks (slice text (e_start e) (e_end e))])
   <=? Z.of_nat (length text) + 4).

Fixpoint recorded_after (text : list Z) (done es : list event) : list event :=
  match es with
  | [] => []
  | e :: r => if has_room text done e then e :: recorded_after text (done ++ [e]) r else recorded_after text done r
  end.
Definition recorded (text : list Z) (es : list event) : list event := recorded_after text [] es.
