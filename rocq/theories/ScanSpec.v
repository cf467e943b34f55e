(** Specification of what a line counting parser reports. *)
From Coq Require Import ZArith String List Bool.
From Verif Require Import Base ParsedModel.
Import ListNotations.
Open Scope string_scope.
Open Scope Z_scope.
Open Scope list_scope.

(** The languages whose lines a file of the language may hold.  Templates count their
    text as html. *)
Definition may_report (name : string) : list string :=
  if String.eqb name "html" then ["html"; "css"; "javascript"]
  else if String.eqb name "php" then ["html"; "css"; "javascript"; "php"]
  else if String.eqb name "jsp" then ["html"; "css"; "javascript"; "java"]
  else if String.eqb name "rhtml" then ["html"; "css"; "javascript"; "ruby"]
  else if String.eqb name "cs_aspx" then ["html"; "css"; "javascript"; "csharp"]
  else if String.eqb name "vb_aspx" then ["html"; "css"; "javascript"; "visualbasic"]
  else if String.eqb name "clearsilver_template" then ["html"; "css"; "javascript"; "clearsilver"]
  else if String.eqb name "mxml" then ["mxml"; "css"; "actionscript"]
  else if String.eqb name "haml" then ["haml"; "ruby"]
  else if String.eqb name "coffeescript" then ["coffeescript"; "javascript"]
  else if String.eqb name "metapost_with_tex" then ["metapost"; "tex"]
  else if String.eqb name "nix" then ["nix"; "shell"]
  else [name].

(** A report about some bytes of the file. *)
Definition line_report (name : string) (text : list Z) (e : event) : Prop :=
  In (e_lang e) (may_report name) /\
  In (e_entity e) ["lcode"; "lcomment"; "lblank"] /\
  0 <= e_start e < e_end e /\ e_end e <= Z.of_nat (length text).

(** The bound on the number of steps of a scanner, in terms of the file size. *)
Definition step_bound (text : list Z) : Z :=
  64 * (Z.of_nat (length text) + 6) * (Z.of_nat (length text) + 6).

(** Files the C interface can take: bytes, and a size that is an int. *)
Definition file (text : list Z) : Prop :=
  (forall c, In c text -> 0 <= c < 256) /\ Z.of_nat (length text) <= int_max.

(** The languages of templates with html in them. *)
Definition html_like : list string :=
  ["html"; "php"; "jsp"; "rhtml"; "cs_aspx"; "vb_aspx"; "clearsilver_template"].

(** Position [i] of the file lies inside a run of blanks (spaces and tabs). *)
Definition blank_at (text : list Z) (i : Z) : Prop :=
  0 <= i /\ (nth_error text (Z.to_nat i) = Some 32 \/ nth_error text (Z.to_nat i) = Some 9).
Definition inside_blanks (text : list Z) (i : Z) : Prop := blank_at text (i - 1) /\ blank_at text i.
