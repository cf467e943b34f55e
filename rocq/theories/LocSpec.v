(** Specification of the line-count lists: a list is the multiset ("bag") of
    everything that was added to it. *)
From Coq Require Import ZArith String List Bool.
From Verif Require Import Base LocModel.
Import ListNotations.
Open Scope Z_scope.

Definition zsum (l : list Z) : Z := fold_right Z.add 0 l.

(** Sum of a field over the entries of language [g]. *)
Definition sum_by (f : loc -> Z) (g : string) (bag : list loc) : Z :=
  zsum (map f (filter (fun l => String.eqb (l_lang l) g) bag)).

(** Names in order of first occurrence, without repetition. *)
Fixpoint first_occ (l : list string) : list string :=
  match l with
  | [] => []
  | x :: r => x :: filter (fun y => negb (String.eqb x y)) (first_occ r)
  end.

Definition sum_loc (bag : list loc) (g : string) : loc :=
  mkLoc g (sum_by l_code g bag) (sum_by l_comments g bag)
        (sum_by l_blanks g bag) (sum_by l_files g bag).

(** What the list must contain. *)
Definition summary (bag : list loc) : list loc :=
  map (sum_loc bag) (first_occ (map l_lang bag)).

(** What a lookup must return. *)
Definition lookup (bag : list loc) (g : string) : option loc :=
  if existsb (fun l => String.eqb (l_lang l) g) bag
  then Some (sum_loc bag g) else None.

(** Number of lines of an entry. *)
Definition lines (l : loc) : Z := l_code l + l_comments l + l_blanks l.

(** The bags after a history. *)
Definition bag_op (bags : list (list loc)) (op : loc_op) : list (list loc) :=
  match op with
  | LNew => bags ++ [[]]
  | LAdd i l =>
    match nth_error bags i with
    | Some b => upd bags i (b ++ [l])
    | None => bags
    end
  | LAddList i j =>
    match nth_error bags i, nth_error bags j with
    | Some a, Some b => upd bags i (a ++ b)
    | _, _ => bags
    end
  | LCompact i =>
    match nth_error bags i with
    | Some b => bags ++ [filter (fun l => negb (lines l =? 0)) (summary b)]
    | None => bags
    end
  end.

Definition bags_of (ops : list loc_op) : list (list loc) :=
  fold_left bag_op ops [].

Definition loc_nonneg (l : loc) : Prop :=
  0 <= l_code l /\ 0 <= l_comments l /\ 0 <= l_blanks l /\ 0 <= l_files l.

Definition op_nonneg (op : loc_op) : Prop :=
  match op with LAdd _ l => loc_nonneg l | _ => True end.

(** The number of lines and of files of a bag, summed over all languages, fit
    in an [int]. *)
Definition bag_fits (bag : list loc) : Prop :=
  zsum (map lines bag) <= int_max /\ zsum (map l_files bag) <= int_max.


(** * LocDeltaList *)

Definition dsum_by (f : delta -> Z) (g : string) (bag : list delta) : Z :=
  zsum (map f (filter (fun d => String.eqb (d_lang d) g) bag)).

Definition sum_delta (bag : list delta) (g : string) : delta :=
  mkDelta g (dsum_by d_code_added g bag) (dsum_by d_code_removed g bag)
    (dsum_by d_comments_added g bag) (dsum_by d_comments_removed g bag)
    (dsum_by d_blanks_added g bag) (dsum_by d_blanks_removed g bag).

(** What a user expects of a lookup (the analogue of [lookup]). *)
Definition dlookup (bag : list delta) (g : string) : option delta :=
  if existsb (fun d => String.eqb (d_lang d) g) bag
  then Some (sum_delta bag g) else None.

(** What the list really contains: the first language is merged, the other
    additions are kept one by one. *)
Definition dcontents (bag : list delta) : list delta :=
  match bag with
  | [] => []
  | d0 :: _ => sum_delta bag (d_lang d0) ::
               filter (fun d => negb (String.eqb (d_lang d) (d_lang d0))) bag
  end.

Definition changed (d : delta) : bool :=
  negb ((d_code_added d =? 0) && (d_code_removed d =? 0) &&
        (d_comments_added d =? 0) && (d_comments_removed d =? 0) &&
        (d_blanks_added d =? 0) && (d_blanks_removed d =? 0)).

(** Entries handed to each list, one by one, in order. *)
Definition dbag_op (bags : list (list delta)) (op : delta_op) : list (list delta) :=
  match op with
  | DNew => bags ++ [[]]
  | DAdd i d =>
    match nth_error bags i with
    | Some b => upd bags i (b ++ [d])
    | None => bags
    end
  | DAddList i j =>
    if Nat.eqb i j then bags else
    match nth_error bags i, nth_error bags j with
    | Some a, Some b => upd bags i (a ++ dcontents b)
    | _, _ => bags
    end
  | DCompact i =>
    match nth_error bags i with
    | Some b => bags ++ [filter changed (dcontents b)]
    | None => bags
    end
  end.

Definition dbags_of (ops : list delta_op) : list (list delta) :=
  fold_left dbag_op ops [].

(** Everything that was ever added to each list, directly or through other
    lists. *)
Definition draw_op (bags : list (list delta)) (op : delta_op) : list (list delta) :=
  match op with
  | DNew => bags ++ [[]]
  | DAdd i d =>
    match nth_error bags i with
    | Some b => upd bags i (b ++ [d])
    | None => bags
    end
  | DAddList i j =>
    if Nat.eqb i j then bags else
    match nth_error bags i, nth_error bags j with
    | Some a, Some b => upd bags i (a ++ b)
    | _, _ => bags
    end
  | DCompact i =>
    match nth_error bags i with
    | Some b => bags ++ [b]
    | None => bags
    end
  end.

Definition draw_of (ops : list delta_op) : list (list delta) :=
  fold_left draw_op ops [].

Definition net_code (d : delta) : Z := d_code_added d - d_code_removed d.
Definition net_comments (d : delta) : Z := d_comments_added d - d_comments_removed d.
Definition net_blanks (d : delta) : Z := d_blanks_added d - d_blanks_removed d.
Definition net_total (d : delta) : Z := net_code d + net_comments d + net_blanks d.
