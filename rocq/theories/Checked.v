(** Lists with a certificate for every element.  The certificates are computed once, by
    [Eval], and kept as data; only the check is part of a proof. *)
From Coq Require Import List Bool.
Import ListNotations.

Section Checked.
  Context {A T : Type}.
  Variable f : A -> T -> bool.
  Fixpoint all_checked (l : list A) (ts : list T) : bool :=
    match l, ts with
    | [], _ => true
    | a :: l, t :: ts => f a t && all_checked l ts
    | _ :: _, [] => false
    end.
  Lemma all_checked_in l : forall ts a, all_checked l ts = true -> In a l -> exists t, f a t = true.
  Proof.
    induction l as [|b l IH]; intros [|t ts] a H Hin; cbn in *; try contradiction; try discriminate.
    apply andb_prop in H as [H1 H2]. destruct Hin as [<-|Hin]; [exists t; exact H1|]. exact (IH _ _ H2 Hin).
  Qed.
End Checked.
