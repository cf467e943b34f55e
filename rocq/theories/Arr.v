(** C arrays of [int]: a size and possibly uninitialised cells.  Reading an
    uninitialised cell and leaving the bounds are undefined behaviour. *)
From Coq Require Import ZArith List Bool Lia.
From Verif Require Import Base.
Import ListNotations.
Open Scope Z_scope.

Record arr := mkArr { asize : Z; cell : Z -> option Z }.

(** malloc *)
Definition anew (n : Z) : arr := mkArr n (fun _ => None).

Definition inb (a : arr) (i : Z) : bool := (0 <=? i) && (i <? asize a).

Definition aget (a : arr) (i : Z) : res Z :=
  if inb a i then
    match cell a i with Some v => Ok v | None => Ub Uninit end
  else Ub OutOfBounds.

Definition aset (a : arr) (i v : Z) : res arr :=
  if inb a i then
    Ok (mkArr (asize a) (fun k => if k =? i then Some v else cell a k))
  else Ub OutOfBounds.

(** realloc: the cells common to both sizes keep their contents. *)
Definition arealloc (a : arr) (n : Z) : arr :=
  mkArr n (fun k => if k <? asize a then cell a k else None).

Lemma inb_true a i : 0 <= i < asize a -> inb a i = true.
Proof.
  intros H. unfold inb. rewrite andb_true_iff, Z.leb_le, Z.ltb_lt. lia.
Qed.

Lemma aget_ok a i v : 0 <= i < asize a -> cell a i = Some v -> aget a i = Ok v.
Proof. intros H E. unfold aget. rewrite inb_true, E by auto. reflexivity. Qed.

Lemma aset_ok a i v : 0 <= i < asize a ->
  aset a i v = Ok (mkArr (asize a) (fun k => if k =? i then Some v else cell a k)).
Proof. intros H. unfold aset. rewrite inb_true by auto. reflexivity. Qed.

(** Pointwise form, convenient for proofs. *)
Lemma aset_ex a i v : 0 <= i < asize a ->
  exists a', aset a i v = Ok a' /\ asize a' = asize a /\ cell a' i = Some v /\
             forall k, k <> i -> cell a' k = cell a k.
Proof.
  intros H. eexists. split; [apply aset_ok; auto|]. cbn. split; auto.
  rewrite Z.eqb_refl. split; auto. intros k Hk. apply Z.eqb_neq in Hk. rewrite Hk. auto.
Qed.
