(** Certificates of the languages of LexTable.v. *)
From Coq Require Import ZArith String List Bool.
From Verif Require Import Base ParsedModel RagelSyntax RagelBuild RagelRun ParserTable LineSpec LexSpec LexCheck LexTable Checked.
Import ListNotations.
Open Scope string_scope.
Open Scope list_scope.

Definition lex_certified (e : string * lexis) (t : table) : bool :=
  match find_entry (fst e) with
  | Some en =>
    match compile (en_parser en) with
    | Some m =>
      String.eqb (value (en_vars en) (m_lang m)) (fst e) && lex_check (snd e) (m_lang m) (reps (snd e) m) m t
    | None => false
    end
  | None => false
  end.

Definition lex_tables : list table := Eval vm_compute in
  map (fun e => match find_entry (fst e) with
                | Some en => match compile (en_parser en) with
                             | Some m => lex_table (snd e) (m_lang m) (reps (snd e) m) m
                             | None => PM.empty _
                             end
                | None => PM.empty _
                end) lexes.
Lemma lex_certs : all_checked lex_certified lexes lex_tables = true.
Proof. vm_cast_no_check (eq_refl true). Qed.
