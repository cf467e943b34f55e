(** Checking the row of a state of a machine: an edge that occurs in many cells of the row
    is checked once. *)
From Coq Require Import ZArith String List Bool.
From Verif Require Import Base RagelSyntax RagelBuild.
Import ListNotations.

Fixpoint branch_edges (b : branch) : list edge :=
  match b with BEdge e => [e] | BIf _ y n => branch_edges y ++ branch_edges n end.

(** The same instructions. *)
Definition macro_same (a b : macro) : bool :=
  match a, b with
  | Mls, Mls | Mcode, Mcode | Mcomment, Mcomment => true
  | Minl l, Minl k | Mnl l, Mnl k | Membinl l, Membinl k | Membnl l, Membnl k | Mblank l, Mblank k => String.eqb l k
  | _, _ => false
  end.
Fixpoint cases_same (a b : list (Z * macro)) : bool :=
  match a, b with
  | [], [] => true
  | (x, m) :: a, (y, n) :: b => Z.eqb x y && macro_same m n && cases_same a b
  | _, _ => false
  end.
Fixpoint names_same (a b : list string) : bool :=
  match a, b with
  | [], [] => true
  | x :: a, y :: b => String.eqb x y && names_same a b
  | _, _ => false
  end.
Definition stmt_same (a b : stmt) : bool :=
  match a, b with
  | Entity x, Entity y => Z.eqb x y
  | Switch l, Switch k => cases_same l k
  | Acode, Acode | Acomment, Acomment | Als, Als | Aenqueue, Aenqueue | Acommit, Acommit | Aoutry, Aoutry
  | Hold, Hold | PTs, PTs | Ret, Ret => true
  | Asaw l, Asaw k => String.eqb l k
  | Report l n, Report k m => String.eqb l k && names_same n m
  | VarSet v n, VarSet w m | VarAdd v n, VarAdd w m | VarCopy v n, VarCopy w m => Z.eqb v w && Z.eqb n m
  | Call i, Call j | Goto i, Goto j => Nat.eqb i j
  | _, _ => false
  end.
Fixpoint body_same (a b : list stmt) : bool :=
  match a, b with
  | [], [] => true
  | x :: a, y :: b => stmt_same x y && body_same a b
  | _, _ => false
  end.
Definition instr_same (a b : instr) : bool :=
  match a, b with
  | SetTe, SetTe | OnAct, OnAct => true
  | SetAct i, SetAct j | OnLast i, OnLast j | OnNext i, OnNext j | OnLag i, OnLag j => Nat.eqb i j
  | User x, User y => Z.eqb (a_id x) (a_id y) && body_same (a_body x) (a_body y)
  | _, _ => false
  end.
Fixpoint instrs_same (a b : list instr) : bool :=
  match a, b with
  | [], [] => true
  | x :: a, y :: b => instr_same x y && instrs_same a b
  | _, _ => false
  end.
Definition edge_same (a b : edge) : bool :=
  match e_to a, e_to b with
  | Some x, Some y => Pos.eqb x y && instrs_same (e_ins a) (e_ins b)
  | None, None => instrs_same (e_ins a) (e_ins b)
  | _, _ => false
  end.

Ltac same :=
  repeat match goal with
         | H : (_ && _)%bool = true |- _ => apply andb_prop in H as [? ?]
         | H : Z.eqb _ _ = true |- _ => apply Z.eqb_eq in H
         | H : Nat.eqb _ _ = true |- _ => apply Nat.eqb_eq in H
         | H : String.eqb _ _ = true |- _ => apply String.eqb_eq in H
         end; subst; auto.
Lemma macro_same_eq a b : macro_same a b = true -> a = b.
Proof. destruct a, b; cbn [macro_same]; try discriminate; intros H; same. Qed.
Lemma cases_same_eq a : forall b, cases_same a b = true -> a = b.
Proof.
  induction a as [|[x m] a IH]; intros [|[y n] b]; cbn [cases_same]; try discriminate; auto.
  intros H. same. apply macro_same_eq in H1. apply IH in H0. congruence.
Qed.
Lemma names_same_eq a : forall b, names_same a b = true -> a = b.
Proof.
  induction a as [|x a IH]; intros [|y b]; cbn [names_same]; try discriminate; auto.
  intros H. same. apply IH in H0. congruence.
Qed.
Lemma stmt_same_eq a b : stmt_same a b = true -> a = b.
Proof.
  destruct a, b; cbn [stmt_same]; try discriminate; intros H; same.
  - apply cases_same_eq in H. congruence.
  - apply names_same_eq in H0. congruence.
Qed.
Lemma body_same_eq a : forall b, body_same a b = true -> a = b.
Proof.
  induction a as [|x a IH]; intros [|y b]; cbn [body_same]; try discriminate; auto.
  intros H. same. apply IH in H0. apply stmt_same_eq in H. congruence.
Qed.
Lemma instr_same_eq a b : instr_same a b = true -> a = b.
Proof.
  destruct a, b; cbn [instr_same]; try discriminate; auto; intros H; same.
  destruct a, a0. cbn in *. apply body_same_eq in H0. congruence.
Qed.
Lemma instrs_same_eq a : forall b, instrs_same a b = true -> a = b.
Proof.
  induction a; intros [|y b]; cbn; try discriminate; auto. intros H. apply andb_prop in H as [H1 H2].
  apply instr_same_eq in H1. apply IHa in H2. congruence.
Qed.
Lemma edge_same_eq a b : edge_same a b = true -> a = b.
Proof.
  destruct a as [[x|] l], b as [[y|] k]; unfold edge_same; cbn [e_to e_ins]; try discriminate.
  - intros H. apply andb_prop in H as [H1 H2]. apply Pos.eqb_eq in H1. apply instrs_same_eq in H2. congruence.
  - intros H. apply instrs_same_eq in H. congruence.
Qed.

(** [P n e]: the edge is right in a cell of class [n]; [Q k e]: it is right in all cells of
    kind [k]. *)
Section Rows.
  Variable K : nat -> bool.
  Variable Q : bool -> edge -> bool.
  Variable P : nat -> edge -> bool.
  Fixpoint row_ok (seen : list (bool * edge)) (l : list (nat * branch)) : bool :=
    match l with
    | [] => true
    | (n, BEdge e) :: l =>
      let k := K n in
      if existsb (fun x => eqb (fst x) k && edge_same (snd x) e) seen then row_ok seen l
      else if Q k e then row_ok ((k, e) :: seen) l
      else P n e && row_ok seen l
    | (n, b) :: l => forallb (P n) (branch_edges b) && row_ok seen l
    end.

  Hypothesis QP : forall n e, Q (K n) e = true -> P n e = true.

  Lemma row_ok_in l : forall seen, (forall k e, In (k, e) seen -> Q k e = true) -> row_ok seen l = true ->
    forall n b e, In (n, b) l -> In e (branch_edges b) -> P n e = true.
  Proof.
    induction l as [|[n b] l IH]; intros seen Hs H n' b' e' Hin He; [destruct Hin|].
    cbn [row_ok] in H. destruct b as [e|c y z].
    - cbv zeta in H. destruct (existsb _ seen) eqn:Ex.
      + destruct Hin as [[= <- <-]|Hin]; [|eapply IH; eauto].
        destruct He as [<-|[]]. apply existsb_exists in Ex. destruct Ex as ([k x] & Hx & E). cbn [fst snd] in E.
        apply andb_prop in E as [E1 E2]. apply eqb_prop in E1. apply edge_same_eq in E2. subst. apply QP. auto.
      + destruct (Q (K n) e) eqn:EQ.
        * destruct Hin as [[= <- <-]|Hin].
          -- destruct He as [<-|[]]. auto.
          -- eapply IH; [|exact H|exact Hin|exact He]. intros k x [[= <- <-]|Hx]; auto.
        * apply andb_prop in H as [H1 H2]. destruct Hin as [[= <- <-]|Hin]; [|eapply IH; eauto].
          destruct He as [<-|[]]. auto.
    - apply andb_prop in H as [H1 H2]. destruct Hin as [[= <- <-]|Hin]; [|eapply IH; eauto].
      rewrite forallb_forall in H1. auto.
  Qed.
End Rows.
