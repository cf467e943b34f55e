(** What is certified about the entity machine of every entry of the parser table. *)
From Coq Require Import ZArith String List Bool Lia.
From Verif Require Import Base ParsedModel RagelSyntax RagelBuild RagelRun ScanCheck ScanProofs ParserTable.
From Verif Require Import ScanSpec ScanCert EntitySpec TailCheck EntityCheck Checked.
Import ListNotations.
Open Scope string_scope.
Open Scope Z_scope.
Open Scope list_scope.

Definition entity_kinds (en : entry) (lang kind : string) : bool :=
  mem kind (entity_names (value (en_vars en) lang))
  || (mem (en_name en) mixed && mem kind ["lcode"; "lcomment"; "lblank"]).

(** Two checks of one machine: limbo fails the first, some languages the second. *)
Definition entities_certified (en : entry) (t : table * x_table) : bool :=
  let names := map fst (en_vars en) in
  let len := mem (en_name en) null_offset in
  let cnt := mem (en_name en) counts_up in
  match compile (en_entities en) with
  | Some m =>
    (String.eqb (en_name en) "limbo" || check m names len cnt (entity_kinds en) (fst t))
    && (mem (en_name en) no_entities
        || entity_check m (mem (en_name en) complete) (negb (mem (en_name en) loose)) (snd t))
  | None => false
  end.

Definition entity_tables : list (table * x_table) := Eval vm_compute in
  map (fun en =>
    let names := map fst (en_vars en) in
    let len := mem (en_name en) null_offset in
    let cnt := mem (en_name en) counts_up in
    match compile (en_entities en) with
    | Some m =>
      (analyse m names len cnt (entity_kinds en) (mem (en_name en) keeps),
       if mem (en_name en) no_entities then PM.empty _
       else entity_table m (mem (en_name en) complete) (negb (mem (en_name en) loose)))
    | None => ([], PM.empty _)
    end) entries.
Lemma all_entities_certified : all_checked entities_certified entries entity_tables = true.
Proof. vm_cast_no_check (eq_refl true). Qed.
