(** Certificates of the languages that are counted line by line. *)
From Coq Require Import ZArith String List Bool.
From Verif Require Import Base ParsedModel RagelSyntax RagelBuild RagelRun ParserTable LineSpec LineCheck LineProofs Checked.
Import ListNotations.
Open Scope string_scope.
Open Scope list_scope.

Definition line_certified (x : string * style) (t : table) : bool :=
  match find_entry (fst x) with
  | Some en =>
    match compile (en_parser en) with
    | Some m =>
      String.eqb (value (en_vars en) (m_lang m)) (fst x) && tab_check m && line_check (snd x) (m_lang m) m t
    | None => false
    end
  | None => false
  end.

Definition line_tables : list table := Eval vm_compute in
  map (fun x => match find_entry (fst x) with
                | Some en => match compile (en_parser en) with
                             | Some m => line_table (snd x) (m_lang m) m
                             | None => PM.empty _
                             end
                | None => PM.empty _
                end) styles.
Lemma line_certs : all_checked line_certified styles line_tables = true.
Proof. vm_cast_no_check (eq_refl true). Qed.
