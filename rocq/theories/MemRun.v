(** Whole sequences of calls. *)
From Coq Require Import String List Bool Arith Lia Permutation.
From Verif Require Import MemModel MemLogic MemLists MemFiles MemParse MemSpec MemClient MemCalls.
Import ListNotations.
Open Scope string_scope.
Open Scope list_scope.
Open Scope nat_scope.

Inductive leaves_all : list call -> list leak -> Prop :=
| leaves_nil : leaves_all [] []
| leaves_cons : forall c r X Y, leaves c X -> leaves_all r Y -> leaves_all (c :: r) (Y ++ X).

Definition kept (ts ts' : list thing) (n : nat) : Prop :=
  forall a o, nth_error ts n = Some (File a o) ->
  exists b, nth_error ts' n = Some (File b o) /\ keeps_contents a b.

Lemma keeps_trans : forall a b c, keeps_contents a b -> keeps_contents b c -> keeps_contents a c.
Proof. intros a b c H1 H2 N. rewrite <- (H1 N). apply H2. now rewrite (H1 N). Qed.

Lemma tri_run_calls : forall cs q e ts L t, good e ts -> afters (map track ts) cs = Some t ->
  tri q (all_cells ts ++ leak_cells L) (run_calls e cs) (fun e' q' C' => exists ts' X,
    C' = all_cells ts' ++ leak_cells (X ++ L) /\ good e' ts' /\ map track ts' = t /\
    leaves_all cs X /\ (forall n, quiet (map track ts) cs n = true -> kept ts ts' n) /\
    exists r, e' = e ++ r).
Proof.
  induction cs as [|c cs IH]; intros q e ts L t G A; cbn [afters run_calls] in *.
  - injection A as <-. apply tri_ret. exists ts, []. split; [reflexivity|]. split; [exact G|].
    split; [reflexivity|]. split; [constructor|]. split; [|exists []; now rewrite app_nil_r].
    intros n _ a o H. exists a. split; [exact H|apply keeps_refl].
  - destruct (after (map track ts) c) as [t1|] eqn:E; [|discriminate].
    eapply tri_bind; [apply (tri_run_call q e ts L c t1 G E)|].
    intros e1 q1 C1 [ts1 [X1 [-> [G1 [T1 [V1 [K1 [r1 ->]]]]]]]]. rewrite <- T1 in A.
    eapply tri_weaken; [apply (IH q1 _ ts1 (X1 ++ L) t G1 A)|].
    intros e2 q2 C2 [ts2 [X2 [-> [G2 [T2 [V2 [K2 [r2 ->]]]]]]]].
    exists ts2, (X2 ++ X1). split; [now rewrite <- (app_assoc X2 X1 L)|]. split; [exact G2|].
    split; [exact T2|]. split; [now constructor|]. split; [|exists (r1 ++ r2); now rewrite app_assoc].
    intros n Hn a o H. cbn [quiet] in Hn. rewrite E in Hn. apply andb_prop in Hn.
    destruct Hn as [N1 N2]. apply negb_true_iff in N1. rewrite <- T1 in N2.
    destruct (K1 n a o H N1) as [b [Hb Kb]]. destruct (K2 n N2 b o Hb) as [d [Hd Kd]].
    exists d. split; [exact Hd|]. eapply keeps_trans; eassumption.
Qed.

Lemma good_nil : good [] [].
Proof. split; [reflexivity|]. intros [|i] t H; discriminate. Qed.

(** The heap after a run. *)
Definition after_run (cs : list call) (t : list held) (e : list ptr) (s : state) (q : queued)
    (ts : list thing) (X : list leak) : Prop :=
  heap s q (all_cells ts ++ leak_cells X) /\ good e ts /\ map track ts = t /\ leaves_all cs X.

Lemma run_ends : forall cs t w, afters [] cs = Some t ->
  exists e s q ts X, run cs w = Done e s /\ after_run cs t e s q ts X.
Proof.
  intros cs t w A. destruct (tri_run_calls cs [] [] [] [] t good_nil A [] (start w))
    as [e [s [q [C [E [H [ts [X [-> [G [T [V _]]]]]]]]]]]].
  - split; [reflexivity|]. split; [reflexivity|]. split; [constructor|].
    intros p o. split; [|contradiction]. unfold block. cbn. destruct p; discriminate.
  - exists e, s, q, ts, X. split; [exact E|]. rewrite !app_nil_r in H. split; [exact H|]. auto.
Qed.

Lemma run_app : forall a b e s, run_calls e (a ++ b) s = bind (run_calls e a) (fun e' => run_calls e' b) s.
Proof.
  induction a as [|c a IH]; intros b e s; [reflexivity|]. cbn [app run_calls]. unfold bind at 1 2 3.
  destruct (run_call e c s) as [e' s'|f]; [|reflexivity]. apply IH.
Qed.

Lemma run_more : forall cs ds t t' w, afters [] cs = Some t -> afters t ds = Some t' ->
  exists e s q ts X, run cs w = Done e s /\ after_run cs t e s q ts X /\
  exists r s' q' ts' Y, run (cs ++ ds) w = Done (e ++ r) s' /\
    heap s' q' (all_cells ts' ++ leak_cells (Y ++ X)) /\ good (e ++ r) ts' /\ map track ts' = t' /\
    leaves_all ds Y /\ (forall n, quiet t ds n = true -> kept ts ts' n).
Proof.
  intros cs ds t t' w A B. destruct (run_ends cs t w A) as [e [s [q [ts [X [E [H [G [T V]]]]]]]]].
  exists e, s, q, ts, X. split; [exact E|]. split; [split; [exact H|auto]|].
  rewrite <- T in B.
  destruct (tri_run_calls ds q e ts X t' G B [] s) as [e' [s' [q' [C [E' [H' [ts' [Y [-> [G' [T' [V' [K [r ->]]]]]]]]]]]]]].
  { now rewrite app_nil_r. }
  exists r, s', q', ts', Y. split; [unfold run; rewrite run_app; unfold bind; unfold run in E; now rewrite E|].
  rewrite app_nil_r in H'. split; [exact H'|]. split; [exact G'|]. split; [exact T'|]. split; [exact V'|].
  rewrite <- T. exact K.
Qed.

(** ** Reading off what is left *)

Lemma all_gone : forall ts, Forall (eq HGone) (map track ts) -> all_cells ts = [].
Proof.
  induction ts as [|t ts IH]; intros H; [reflexivity|]. cbn in H. apply Forall_cons_iff in H.
  destruct H as [H1 H2]. unfold all_cells in *. cbn. rewrite (IH H2). now destruct t.
Qed.

Lemma block_in : forall s q C p o, heap s q C -> block s p = Some o -> In (p, o) C \/ In (p, o) (qcells q).
Proof. intros s q C p o [_ [_ [_ H]]] B. apply H in B. now apply in_app_or in B. Qed.

Lemma in_block : forall s q C p o, heap s q C -> In (p, o) C -> block s p = Some o.
Proof. intros s q C p o [_ [_ [_ H]]] I. apply H. apply in_or_app. now left. Qed.

Lemma qcells_in : forall q p o, In (p, o) (qcells q) -> exists x n, o = Callback x n.
Proof.
  induction q as [|[r y] q IH]; intros p o H; [contradiction|]. destruct H as [E|H]; [|eauto].
  injection E as <- <-. eauto.
Qed.

(** No leaks but those of [p]. *)
Lemma leaves_none : forall cs X, leaves_all cs X ->
  (forall c, In c cs -> match c with Licenses _ | Diff _ _ | LocDelta _ _ _ => False | _ => True end) -> X = [].
Proof.
  intros cs X H. induction H as [|c r X Y H1 H2 IH]; intros N; [reflexivity|].
  rewrite IH by (intros d I; apply N; now right). specialize (N c (or_introl eq_refl)).
  destruct c; try contradiction; cbn in H1; now subst X.
Qed.

Lemma leaves_texts : forall cs X, leaves_all cs X ->
  (forall c, In c cs -> match c with Diff _ _ | LocDelta _ _ _ => False | _ => True end) -> Forall is_text X.
Proof.
  intros cs X H. induction H as [|c r X Y H1 H2 IH]; intros N; [constructor|].
  apply Forall_app. split; [apply IH; intros d I; apply N; now right|].
  specialize (N c (or_introl eq_refl)).
  destruct c; try contradiction; cbn in H1; try exact H1; subst X; constructor.
Qed.

Lemma leaves_no_texts : forall cs X, leaves_all cs X ->
  (forall c, In c cs -> match c with Licenses _ => False | _ => True end) -> Forall (fun l => ~ is_text l) X.
Proof.
  intros cs X H. induction H as [|c r X Y H1 H2 IH]; intros N; [constructor|].
  apply Forall_app. split; [apply IH; intros d I; apply N; now right|].
  specialize (N c (or_introl eq_refl)).
  destruct c; try contradiction; cbn in H1; try exact H1; try (subst X; constructor).
  destruct H1 as [p [y [a [m [Ns [-> HN]]]]]]. now apply not_texts.
Qed.

(** The empty languages left behind. *)
Definition blank_of (l : leak) : list ptr := match l with LBlank p _ _ _ => [p] | _ => [] end.
Definition blanks (X : list leak) : list ptr := flat_map blank_of X.

Definition is_loc_delta (c : call) : bool := match c with LocDelta _ _ _ => true | _ => false end.

Lemma leaves_blanks : forall cs X, leaves_all cs X ->
  length (filter is_loc_delta cs) <= length (blanks X).
Proof.
  intros cs X H. induction H as [|c r X Y H1 H2 IH]; [cbn; lia|].
  unfold blanks in *. rewrite flat_map_app, app_length. cbn [filter].
  destruct c; cbn [is_loc_delta]; try lia.
  destruct H1 as [p [y [a [m [Ns [-> HN]]]]]]. cbn [flat_map blank_of length app]. lia.
Qed.

Lemma blanks_in : forall X p, In p (blanks X) -> exists x c m,
  incl [(p, Language x c m); (c, Bytes CodeText); (m, Bytes CommentText)] (leak_cells X).
Proof.
  intros X p H. unfold blanks in H. apply in_flat_map in H. destruct H as [l [I H]].
  destruct l as [r|r|r x c m]; cbn in H; try contradiction. destruct H as [<-|[]].
  exists x, c, m. intros y Hy. unfold leak_cells. apply in_flat_map. exists (LBlank r x c m). auto.
Qed.

Lemma blanks_sub : forall X F, NoDup (map fst (leak_cells X ++ F)) -> NoDup (blanks X).
Proof.
  induction X as [|l X IH]; intros F H; [constructor|].
  unfold leak_cells, blanks in *. cbn [flat_map] in *. rewrite <- app_assoc in H.
  destruct l as [r|r|r x c m]; cbn in H.
  - inversion_clear H. now apply (IH F).
  - inversion_clear H. now apply (IH F).
  - inversion_clear H as [|? ? H1 H2]. inversion_clear H2 as [|? ? _ H3]. inversion_clear H3 as [|? ? _ H4].
    cbn. constructor; [|now apply (IH F)].
    intros I. destruct (blanks_in X r I) as [x' [c' [m' J]]]. apply H1. right. right.
    change r with (fst (r, Language x' c' m')). apply in_map. apply in_left. apply J. now left.
Qed.

Lemma leak_obj : forall X p o, In (p, o) (leak_cells X) ->
  match o with
  | Bytes LicenseText => exists l, In l X /\ is_text l
  | Bytes TempName | Bytes CodeText | Bytes CommentText | Language _ _ _ => exists l, In l X /\ ~ is_text l
  | _ => False
  end.
Proof.
  intros X p o H. unfold leak_cells in H. apply in_flat_map in H. destruct H as [l [I H]].
  assert (N : match l with LText _ => exists l, In l X /\ is_text l | _ => exists l, In l X /\ ~ is_text l end).
  { destruct l; eexists; (split; [exact I|]); cbn; auto. }
  destruct l as [r|r|r x c m]; cbn in H.
  - destruct H as [E|[]]. injection E as <- <-. exact N.
  - destruct H as [E|[]]. injection E as <- <-. exact N.
  - destruct H as [E|[E|[E|[]]]]; injection E as <- <-; exact N.
Qed.

(** What a client holds. *)
Lemma held_block : forall s q C e ts i t p, heap s q (all_cells ts ++ C) -> good e ts ->
  nth_error ts i = Some t -> thing_at t = Some p ->
  match t with
  | File _ _ => exists x, block s p = Some (Source x)
  | Files _ _ => exists n, block s p = Some (Node KFile n)
  | Count _ k x => block s p = Some (count_of k x)
  | Counts k _ _ => exists n, block s p = Some (Node k n)
  | Gone => True
  end.
Proof.
  intros s q C e ts i t p H G Hi A.
  pose proof (thing_incl ts i t C Hi) as I.
  destruct t as [|a o|l es|r k x|k l es]; cbn in A; try discriminate; injection A as <-.
  - exists (f_src a). eapply in_block; [exact H|]. apply I. now left.
  - destruct (list_head KFile l es) as [n [J _]]. exists n. eapply in_block; [exact H|]. now apply I.
  - eapply in_block; [exact H|]. apply I. now left.
  - destruct (list_head k l es) as [n [J _]]. exists n. eapply in_block; [exact H|]. now apply I.
Qed.
