(** Certificates of the scanners (written by tools/ragel/table.py), part 4 of 4: the tables
    of abstract states found by the analyses pass the checks. *)
From Coq Require Import ZArith String List Bool.
From Verif Require Import Base ParsedModel RagelSyntax RagelBuild RagelRun ScanCheck ScanCert ParserTable TailCheck Checked.
Import ListNotations.

Definition tables4 : list (table * h_table) := Eval vm_compute in map tables_of entries4.
Lemma certs4 : all_checked certified_by entries4 tables4 = true.
Proof. vm_cast_no_check (eq_refl true). Qed.
