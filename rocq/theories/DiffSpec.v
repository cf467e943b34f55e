(** Specification of the line diff: longest common subsequences. *)
From Coq Require Import ZArith List Bool.
Import ListNotations.
Open Scope Z_scope.

(** [s] is obtained from [l] by deleting elements. *)
Inductive subseq {A} : list A -> list A -> Prop :=
| sub_nil : subseq [] []
| sub_skip x s l : subseq s l -> subseq s (x :: l)
| sub_take x s l : subseq s l -> subseq (x :: s) (x :: l).

(** [L] is the length of a longest common subsequence. *)
Definition is_lcs {A} (L : nat) (xs ys : list A) : Prop :=
  (exists s, length s = L /\ subseq s xs /\ subseq s ys) /\
  (forall s, subseq s xs -> subseq s ys -> (length s <= L)%nat).

(** Pieces separated by newlines (byte 10). *)
Fixpoint join_nl (pieces : list (list Z)) : list Z :=
  match pieces with
  | [] => []
  | [p] => p
  | p :: r => p ++ 10 :: join_nl r
  end.

(** [ls] are the non-empty lines of [text]. *)
Definition has_lines (text : list Z) (ls : list (list Z)) : Prop :=
  exists pieces, pieces <> [] /\ text = join_nl pieces /\
    (forall p, In p pieces -> ~ In 10 p) /\
    ls = filter (fun p => match p with [] => false | _ => true end) pieces.

(** What is left of two lists after removing the common prefix, then the
    common suffix. *)
Fixpoint strip (xs ys : list Z) : list Z * list Z :=
  match xs, ys with
  | x :: xs', y :: ys' => if x =? y then strip xs' ys' else (xs, ys)
  | _, _ => (xs, ys)
  end.

Definition middle (xs ys : list Z) : list Z * list Z :=
  let '(a, b) := strip xs ys in
  let '(a', b') := strip (rev a) (rev b) in
  (rev a', rev b').

(** The condition under which the end marker of [equiv] is not recognised:
    0 is the largest hash of the changed part of the new text. *)
Definition zero_is_largest (l : list Z) : Prop :=
  In 0 l /\ forall v, In v l -> v <= 0.
