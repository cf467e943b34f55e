(** What [ruby ruby/gestalt.rb paths] prints (gestalt.rb:74-89, base.rb:19-28). *)
From Coq Require Import String Ascii List ZArith Bool Permutation Sorted.
From Verif Require Import Base DetectorModel PrintModel GestaltModel.
Import ListNotations.
Open Scope string_scope.
Open Scope list_scope.
Open Scope Z_scope.

(** base.rb:19-28 Base#<=>.  Types are symbols, which are equal exactly if their names are; strings
    are compared byte by byte. *)
Definition before (a b : gestalt) : comparison :=
  if negb (String.eqb (g_type a) (g_type b)) then String.compare (g_type a) (g_type b)
  else if negb (g_count a =? g_count b) then CompOpp (g_count a ?= g_count b)
  else String.compare (g_name a) (g_name b).

(** Array#sort: some order of the elements in which no element comes before an earlier one.  Which
    one it is where <=> is 0 is left open, as in Ruby, whose sort is not stable. *)
Definition may_sort (l l' : list gestalt) : Prop :=
  Permutation l l' /\ Sorted (fun a b => before a b <> Gt) l'.

(** gestalt.rb:86-88; names do not end in a line end (puts would not add one). *)
Definition line (g : gestalt) : list Z :=
  bytes (g_type g) ++ [9] ++ pad_left 8 (decimal (g_count g)) ++ [9] ++ bytes (g_name g) ++ [10].

(** gestalt.rb:84-88: the output for so many files and these gestalts. *)
Definition prints (files : Z) (gs : list gestalt) (out : list Z) : Prop :=
  exists l, may_sort gs l /\
    out = bytes "Examining " ++ decimal files ++ bytes " file(s) for gestalts." ++ [10] ++ flat_map line l.
