(** Common vocabulary of the model.

    - [res]: outcome of a C computation.  Undefined behaviour and exhausted
      fuel are outcomes of their own, never identified with a value.
    - C [int] arithmetic with explicit overflow check (LP64 / ILP32: 32 bit).
    - bytes are [Z], buffers [list Z]. *)
From Coq Require Import ZArith String Ascii List Bool Lia.
Import ListNotations.
Open Scope Z_scope.

(** Kinds of undefined behaviour the model distinguishes. *)
Inductive ub :=
| OutOfBounds      (* access outside of an allocated object *)
| Uninit           (* read of a cell that was never written *)
| IntOverflow      (* signed overflow *)
| NegLength        (* negative length given to strncpy / a VLA *)
| NullDeref.       (* NULL pointer dereference *)

Inductive res (A : Type) :=
| Ok (a : A)
| Ub (w : ub)
| OutOfFuel.
Arguments Ok {A} a.
Arguments Ub {A} w.
Arguments OutOfFuel {A}.

Definition bind {A B} (m : res A) (f : A -> res B) : res B :=
  match m with
  | Ok a => f a
  | Ub w => Ub w
  | OutOfFuel => OutOfFuel
  end.

Notation "x <- m ;; k" := (bind m (fun x => k))
  (at level 61, m at next level, right associativity).
Notation "' p <- m ;; k" := (bind m (fun p => k))
  (at level 61, p pattern, m at next level, right associativity).

Definition is_ok {A} (r : res A) : Prop := exists a, r = Ok a.

Definition is_ub {A} (r : res A) : bool :=
  match r with Ub _ => true | _ => false end.

Definition int_max : Z := 2147483647.
Definition int_min : Z := -2147483648.

(** A C [int] operation whose mathematical result is [z]. *)
Definition ckint (z : Z) : res Z :=
  if (int_min <=? z) && (z <=? int_max) then Ok z else Ub IntOverflow.

(** Bytes. *)
Definition byte_of_ascii (a : ascii) : Z := Z.of_N (N_of_ascii a).

Fixpoint bytes (s : string) : list Z :=
  match s with
  | EmptyString => []
  | String a r => byte_of_ascii a :: bytes r
  end.

Definition is_byte (c : Z) : Prop := 0 <= c < 256.

(** Equality of buffers. *)
Fixpoint zlist_eqb (a b : list Z) : bool :=
  match a, b with
  | [], [] => true
  | x :: a', y :: b' => (x =? y) && zlist_eqb a' b'
  | _, _ => false
  end.

Lemma zlist_eqb_eq a b : zlist_eqb a b = true <-> a = b.
Proof.
  revert b; induction a as [|x a IH]; destruct b as [|y b]; cbn; split;
    try congruence; try discriminate.
  - rewrite andb_true_iff, Z.eqb_eq, IH. intros [-> ->]; reflexivity.
  - intros [= -> ->]. rewrite Z.eqb_refl, (proj2 (IH b) eq_refl). reflexivity.
Qed.

Lemma zlist_eqb_refl a : zlist_eqb a a = true.
Proof. apply zlist_eqb_eq; reflexivity. Qed.

(** Replace the [i]-th element. *)
Fixpoint upd {A} (l : list A) (i : nat) (x : A) : list A :=
  match l, i with
  | [], _ => []
  | _ :: r, O => x :: r
  | y :: r, S j => y :: upd r j x
  end.

Lemma upd_length {A} (l : list A) i x : length (upd l i x) = length l.
Proof. revert i; induction l; destruct i; cbn; auto. Qed.

Lemma nth_error_upd_eq {A} (l : list A) i x :
  (i < length l)%nat -> nth_error (upd l i x) i = Some x.
Proof. revert i; induction l; destruct i; cbn; intros; try lia; auto. apply IHl; lia. Qed.

Lemma nth_error_upd_ne {A} (l : list A) i j x :
  i <> j -> nth_error (upd l i x) j = nth_error l j.
Proof. revert i j; induction l; destruct i, j; cbn; intros; auto; congruence. Qed.

Lemma bind_ok {A B} (m : res A) (f : A -> res B) b :
  bind m f = Ok b <-> exists a, m = Ok a /\ f a = Ok b.
Proof.
  destruct m; cbn; split; intros H; try discriminate.
  - eauto.
  - destruct H as (x & [= <-] & ?); auto.
  - destruct H as (x & ? & ?); discriminate.
  - destruct H as (x & ? & ?); discriminate.
Qed.

Lemma ckint_ok z : int_min <= z <= int_max -> ckint z = Ok z.
Proof.
  intros H. unfold ckint.
  replace (int_min <=? z) with true by (symmetry; apply Z.leb_le; lia).
  replace (z <=? int_max) with true by (symmetry; apply Z.leb_le; lia).
  reflexivity.
Qed.

Lemma ckint_inv z r : ckint z = Ok r -> r = z /\ int_min <= z <= int_max.
Proof.
  unfold ckint. destruct (_ && _) eqn:E; [|discriminate].
  intros [= <-]. apply andb_true_iff in E as [E1 E2].
  apply Z.leb_le in E1, E2. lia.
Qed.

Lemma ckint_not_fuel z : ckint z <> OutOfFuel.
Proof. unfold ckint. destruct (_ && _); discriminate. Qed.
