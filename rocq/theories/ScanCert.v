(** What is certified about every entry of the parser table. *)
From Coq Require Import ZArith String List Bool Lia.
From Verif Require Import Base ParsedModel RagelSyntax RagelBuild RagelRun ScanCheck ScanProofs ParserTable TailCheck Checked.
From Verif Require LineProofs.
Import ListNotations.
Open Scope string_scope.
Open Scope Z_scope.
Open Scope list_scope.

(** The entries whose scanner may take the offset of NULL, resp. overflow a counter. *)
Definition null_offset : list string :=
  ["html"; "jsp"; "php"; "rhtml"; "cs_aspx"; "vb_aspx"; "clearsilver_template"].
Definition counts_up : list string := ["rebol"].

(** haml needs the analysis to keep more. *)
Definition keeps : list string := ["haml"].

(** The kinds of lines. *)
Definition line_kinds (lang kind : string) : bool := mem kind ["lcode"; "lcomment"; "lblank"].

(** A table for [check] and one for [tail_check] that pass; no scanner but that of haml
    accepts a vertical tab at the start of a token. *)
Definition certified_by (en : entry) (t : table * h_table) : bool :=
  let names := map fst (en_vars en) in
  let len := mem (en_name en) null_offset in
  let cnt := mem (en_name en) counts_up in
  match compile (en_parser en) with
  | Some m => check m names len cnt line_kinds (fst t) && counting m && tail_check m (snd t)
              && (String.eqb (en_name en) "haml" || LineProofs.tab_check m)
  | None => false
  end.
Definition certified (en : entry) : Prop := exists t, certified_by en t = true.

(** The tables found by the analyses. *)
Definition tables_of (en : entry) : table * h_table :=
  let names := map fst (en_vars en) in
  let len := mem (en_name en) null_offset in
  let cnt := mem (en_name en) counts_up in
  match compile (en_parser en) with
  | Some m => (analyse m names len cnt line_kinds (mem (en_name en) keeps), tail_table m)
  | None => ([], PM.empty _)
  end.
