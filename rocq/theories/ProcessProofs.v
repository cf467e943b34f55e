(** What earlier parses left behind does not matter. *)
From Coq Require Import ZArith String List Bool Lia.
From Verif Require Import Base ParsedModel RagelSyntax RagelBuild RagelRun ProcessModel.
Import ListNotations.
Open Scope Z_scope.

(** Two states that differ only in the copies of the line and in the queue, and in
    those only outside of the queue. *)
Definition alike (r s : rt) : Prop :=
  (r_inq r = true -> leaves r = leaves s) /\
  set_queue [] (set_last None false false r) = set_queue [] (set_last None false false s).

Lemma alike_refl r : alike r r.
Proof. split; auto. Qed.

Ltac open_states :=
  match goal with
  | H : alike ?r ?s |- _ =>
    destruct r as [p1 ts1 te1 act1 cs1 st1 wl1 lc1 ls1 en1 se1 iq1 a1 b1 c1 q1 v1 o1],
             s as [p2 ts2 te2 act2 cs2 st2 wl2 lc2 ls2 en2 se2 iq2 a2 b2 c2 q2 v2 o2];
    destruct H as [Hq He]; cbn in Hq, He; unfold leaves in Hq; cbn in Hq; injection He as -> -> -> -> -> -> -> -> -> -> -> -> -> ->
  end.

Definition both {A} (R : A -> A -> Prop) (x y : res A) : Prop :=
  match x, y with
  | Ok a, Ok b => R a b
  | Ub u, Ub v => u = v
  | OutOfFuel, OutOfFuel => True
  | _, _ => False
  end.
Definition alike_j (x y : rt * bool) : Prop := alike (fst x) (fst y) /\ snd x = snd y.

Lemma both_refl {A} (R : A -> A -> Prop) (x : res A) : (forall a, R a a) -> both R x x.
Proof. intros H. destruct x; cbn; auto. Qed.

Lemma both_bind {A B} (R : A -> A -> Prop) (S : B -> B -> Prop) x y f g :
  both R x y -> (forall a b, R a b -> both S (f a) (g b)) -> both S (bind x f) (bind y g).
Proof. destruct x, y; cbn; intros H K; try contradiction; auto. Qed.

Ltac same := split; cbn; [intros ?; try discriminate; try (unfold leaves; cbn; auto; fail); auto|reflexivity].

(** ** The macros *)

Lemma alike_dequeue r s : alike r s -> alike (dequeue r) (dequeue s).
Proof.
  intros H. open_states. unfold dequeue. cbn. destruct iq2; cbn.
  - specialize (Hq eq_refl). injection Hq as -> -> -> ->. apply alike_refl.
  - same.
Qed.

Lemma alike_do_ls r s : alike r s -> alike (do_ls r) (do_ls s).
Proof. intros H. open_states. same. Qed.
Lemma alike_do_code r s : alike r s -> alike (do_code r) (do_code s).
Proof. intros H. open_states. same. Qed.
Lemma alike_do_comment r s : alike r s -> alike (do_comment r) (do_comment s).
Proof. intros H. open_states. unfold do_comment. cbn. destruct lc2; same. Qed.

Lemma alike_callback l k a b r s : alike r s -> both alike (callback l k a b r) (callback l k a b s).
Proof. intros H. open_states. unfold callback. destruct a, b; cbn; auto. same. Qed.

Lemma alike_enqueue l k a b r s : alike r s -> r_inq r = true -> both alike (enqueue l k a b r) (enqueue l k a b s).
Proof.
  intros H I. open_states. cbn in I. subst iq2. specialize (Hq eq_refl). injection Hq as -> -> -> ->.
  apply both_refl, alike_refl.
Qed.

Ltac fields H :=
  match type of H with
  | alike ?r ?s =>
    let He := fresh in pose proof (proj2 H) as He;
    assert (Fp : r_p r = r_p s) by (destruct r, s; cbn in He; now injection He);
    assert (Fts : r_ts r = r_ts s) by (destruct r, s; cbn in He; now injection He);
    assert (Fte : r_te r = r_te s) by (destruct r, s; cbn in He; now injection He);
    assert (Fact : r_act r = r_act s) by (destruct r, s; cbn in He; now injection He);
    assert (Fcs : r_cs r = r_cs s) by (destruct r, s; cbn in He; now injection He);
    assert (Fstack : r_stack r = r_stack s) by (destruct r, s; cbn in He; now injection He);
    assert (Fwlc : r_wlc r = r_wlc s) by (destruct r, s; cbn in He; now injection He);
    assert (Flcc : r_lcc r = r_lcc s) by (destruct r, s; cbn in He; now injection He);
    assert (Fls : r_ls r = r_ls s) by (destruct r, s; cbn in He; now injection He);
    assert (Fent : r_ent r = r_ent s) by (destruct r, s; cbn in He; now injection He);
    assert (Fseen : r_seen r = r_seen s) by (destruct r, s; cbn in He; now injection He);
    assert (Finq : r_inq r = r_inq s) by (destruct r, s; cbn in He; now injection He);
    assert (Fvars : r_vars r = r_vars s) by (destruct r, s; cbn in He; now injection He);
    assert (Fout : r_out r = r_out s) by (destruct r, s; cbn in He; now injection He);
    clear He
  end.

Lemma alike_p r s : alike r s -> r_p r = r_p s /\ r_out r = r_out s.
Proof. intros H. fields H. auto. Qed.

Lemma alike_kind r s : alike r s -> kind r = kind s.
Proof. intros H. fields H. unfold kind. rewrite Flcc, Fwlc. reflexivity. Qed.

Lemma alike_set_line w c l r s : alike r s -> alike (set_line w c l r) (set_line w c l s).
Proof. intros H. open_states. same. Qed.
Lemma alike_set_seen x r s : alike r s -> alike (set_seen x r) (set_seen x s).
Proof. intros H. open_states. same. Qed.
Lemma alike_set_te x r s : alike r s -> alike (set_te x r) (set_te x s).
Proof. intros H. open_states. same. Qed.
Lemma alike_set_ts x r s : alike r s -> alike (set_ts x r) (set_ts x s).
Proof. intros H. open_states. same. Qed.
Lemma alike_set_p x r s : alike r s -> alike (set_p x r) (set_p x s).
Proof. intros H. open_states. same. Qed.
Lemma alike_set_ent x r s : alike r s -> alike (set_ent x r) (set_ent x s).
Proof. intros H. open_states. same. Qed.
Lemma alike_set_cs x r s : alike r s -> alike (set_cs x r) (set_cs x s).
Proof. intros H. open_states. same. Qed.
Lemma alike_set_stack x r s : alike r s -> alike (set_stack x r) (set_stack x s).
Proof. intros H. open_states. same. Qed.
Lemma alike_set_vars x r s : alike r s -> alike (set_vars x r) (set_vars x s).
Proof. intros H. open_states. same. Qed.
Lemma alike_set_actid x r s : alike r s -> alike (set_actid x r) (set_actid x s).
Proof. intros H. open_states. same. Qed.
Global Hint Resolve alike_set_line alike_set_seen alike_set_te alike_set_ts alike_set_p alike_set_ent alike_set_cs
  alike_set_stack alike_set_vars alike_set_actid alike_dequeue alike_do_ls alike_do_code alike_do_comment alike_refl : alike.

Lemma alike_internal l r s : alike r s -> both alike (std_internal_newline l r) (std_internal_newline l s).
Proof.
  intros H. unfold std_internal_newline. fields H. rewrite <- Fp, <- Fls, <- Finq, <- (alike_kind r s H).
  apply both_bind with (R := alike).
  - destruct ptr_gt; [|exact H]. destruct (r_inq r) eqn:I; [now apply alike_enqueue|now apply alike_callback].
  - intros a b K. cbn. rewrite (proj1 (alike_p a b K)). auto with alike.
Qed.

Lemma alike_newline l r s : alike r s -> both alike (std_newline l r) (std_newline l s).
Proof.
  intros H. apply alike_dequeue in H. unfold std_newline. set (x := dequeue r) in *. set (y := dequeue s) in *.
  clearbody x y. cbv zeta. rewrite (alike_kind x y H). fields H.
  rewrite <- Fte, <- Fwlc, <- Flcc, <- Fls, <- Fts. apply both_bind with (R := alike).
  - destruct ptr_gt; [now apply alike_callback|exact H].
  - intros a b K. cbn. auto with alike.
Qed.

Lemma alike_emb f l r s : (forall l r s, alike r s -> both alike (f l r) (f l s)) -> alike r s ->
  both alike (emb f l r) (emb f l s).
Proof.
  intros F H. unfold emb. fields H. rewrite Fseen. apply both_bind with (R := alike); [now apply F|].
  intros a b K. cbn. auto with alike.
Qed.

Lemma alike_macro text m r s : alike r s -> both alike (exec_macro text m r) (exec_macro text m s).
Proof.
  intros H. destruct m; cbn [exec_macro]; try (cbn; auto with alike; fail).
  - now apply alike_internal.
  - now apply alike_newline.
  - apply alike_emb; [apply alike_internal|exact H].
  - apply alike_emb; [apply alike_newline|exact H].
  - unfold check_blank_entry. fields H. rewrite Fp. destruct (blank_entry _ _ _) as [[q|]|u|]; cbn; auto.
    apply alike_newline. auto with alike.
Qed.

Lemma alike_switch text l : forall r s, alike r s -> both alike (switch text l r) (switch text l s).
Proof.
  induction l as [|[e m] l IH]; intros r s H; [exact H|]. cbn [switch]. fields H. rewrite Fent.
  destruct (r_ent s =? e); [now apply alike_macro|auto].
Qed.

(** ** The machine *)

Section Machine.
  Variable m : machine.
  Variable text : list Z.

  Lemma alike_stmt st r s : alike r s -> both alike_j (exec_stmt m text st r) (exec_stmt m text st s).
  Proof.
    intros H. fields H.
    assert (J : forall a b j, alike a b -> alike_j (a, j) (b, j)) by (split; auto).
    destruct st; cbn [exec_stmt]; try (cbn; auto with alike; fail).
    - apply both_bind with (R := alike); [now apply alike_switch|]. cbn. auto.
    - (* enqueue *) cbn. apply J. clear - H. open_states. same.
    - (* commit *) cbn. apply J. clear - H. open_states. cbn. destruct iq2; cbn.
      + specialize (Hq eq_refl). injection Hq as -> -> -> ->. apply alike_refl.
      + same.
    - (* outry *) cbn. apply J. rewrite Fwlc, Flcc. destruct (r_lcc s || r_wlc s); auto with alike.
    - (* saw *) cbn. apply J. rewrite Fls. auto with alike.
    - rewrite Fent. destruct (r_ent s <? 0); [reflexivity|]. destruct nth_error; [|reflexivity].
      apply both_bind with (R := alike); [rewrite Fts, Fte; now apply alike_callback|cbn; auto].
    - cbn. apply J. rewrite Fvars. auto with alike.
    - rewrite Fvars. destruct ckint; cbn; auto. apply J. auto with alike.
    - cbn. apply J. rewrite Fvars. auto with alike.
    - cbn. apply J. rewrite Fp. auto with alike.
    - rewrite Fts. destruct cint; cbn; auto. apply J. auto with alike.
    - rewrite Fcs, Fstack. destruct (entry m _); cbn [bind]; [|exact eq_refl|exact Logic.I].
      destruct (Nat.ltb (length (r_stack s)) stack_size); [|exact eq_refl]. apply J. auto with alike.
    - destruct (entry m _); cbn; auto. apply J. auto with alike.
    - rewrite Fstack. destruct (r_stack s); cbn; auto. apply J. auto with alike.
  Qed.

  Lemma alike_body l : forall r s, alike r s -> both alike_j (exec_body m text l r) (exec_body m text l s).
  Proof.
    induction l as [|st l IH]; intros r s H; [split; auto|]. cbn [exec_body].
    apply both_bind with (R := alike_j); [now apply alike_stmt|]. intros [a i] [b j] [K E]. cbn in K, E. subst j.
    destruct i; [split; auto|auto].
  Qed.

  Lemma alike_part d i r s : alike r s -> both alike_j (exec_part m text d i r) (exec_part m text d i s).
  Proof.
    intros H. unfold exec_part. destruct nth_error as [[a|]|]; [now apply alike_body|split; auto|reflexivity].
  Qed.

  Lemma alike_instr d i r s : alike r s -> both alike_j (exec_instr m text d i r) (exec_instr m text d i s).
  Proof.
    intros H. fields H. assert (J : forall a b j, alike a b -> alike_j (a, j) (b, j)) by (split; auto).
    destruct i; cbn [exec_instr].
    - now apply alike_body.
    - cbn. apply J. rewrite Fp. auto with alike.
    - cbn. auto with alike.
    - rewrite Fp. apply alike_part. auto with alike.
    - rewrite Fp. apply alike_part. auto with alike.
    - rewrite Fte. destruct cint; cbn; auto. apply alike_part. auto with alike.
    - rewrite Fact, Fte. destruct (r_act s); cbn; auto with alike. destruct cint; cbn; auto. apply alike_part. auto with alike.
  Qed.

  Lemma alike_instrs d l : forall r s, alike r s -> both alike_j (exec_instrs m text d l r) (exec_instrs m text d l s).
  Proof.
    induction l as [|i l IH]; intros r s H; [split; auto|]. cbn [exec_instrs].
    apply both_bind with (R := alike_j); [now apply alike_instr|]. intros [a j] [b k] [K E]. cbn in K, E. subst k.
    destruct j; [split; auto|auto].
  Qed.

  Definition alike_o (x y : outcome) : Prop :=
    match x, y with Go r, Go s | Stop r, Stop s => alike r s | _, _ => False end.

  Lemma alike_again r s : alike r s -> both alike_o (again m r) (again m s).
  Proof.
    intros H. unfold again. fields H. rewrite Fcs. destruct (r_cs s) as [[i k]|]; [|exact H].
    destruct (dfa_of m i) as [d|u|]; cbn; auto. destruct is_scan_start; cbn; rewrite Fp; auto with alike.
  Qed.

  Lemma alike_select b : forall r s, alike r s -> select text b r = select text b s.
  Proof.
    induction b as [e|c y IHy n IHn]; intros r s H; [reflexivity|]. cbn [select].
    assert (E : eval_cond text c r = eval_cond text c s) by (fields H; unfold eval_cond; rewrite Fp, Flcc, Fvars; reflexivity).
    rewrite E. destruct (eval_cond text c s) as [[]|u|]; cbn; auto.
  Qed.

  Lemma alike_step r s : alike r s -> both alike_o (step m text r) (step m text s).
  Proof.
    intros H. unfold step. fields H. rewrite Fcs. destruct (r_cs s) as [[i k]|]; [|exact H].
    destruct (dfa_of m i) as [d|u|]; cbn [bind]; try exact eq_refl; [|exact Logic.I].
    destruct (state_of d k) as [q|u|]; cbn [bind]; try exact eq_refl; [|exact Logic.I]. rewrite Fp.
    destruct (r_p s =? Z.of_nat (length text)).
    - destruct (q_eof_to q) as [x|].
      + apply both_bind with (R := alike_j); [apply alike_instrs; auto with alike|].
        intros [a j] [b l] [K E]. now apply alike_again.
      + apply both_bind with (R := alike_j); [now apply alike_instrs|].
        intros [a j] [b l] [K E]. cbn in K, E. subst l. destruct j; [now apply alike_again|exact K].
    - cbv zeta. set (r' := if is_scan_start d k then set_ts (Some (r_p s)) r else r).
      set (s' := if is_scan_start d k then set_ts (Some (r_p s)) s else s).
      assert (H' : alike r' s') by (unfold r', s'; destruct is_scan_start; auto with alike).
      assert (P : r_p r' = r_p s') by (apply (alike_p _ _ H')). rewrite P. clearbody r' s'.
      destruct (src text (r_p s')) as [c|u|]; cbn [bind]; try exact eq_refl; [|exact Logic.I].
      destruct (PM.find _ _) as [cl|]; cbn [bind]; [|exact eq_refl].
      destruct (nth_error _ _) as [b|]; cbn [bind]; [|exact eq_refl].
      rewrite (alike_select b r' s' H').
      destruct (select text b s') as [e|u|]; cbn [bind]; try exact eq_refl; [|exact Logic.I].
      apply both_bind with (R := alike_j); [apply alike_instrs; auto with alike|].
      intros [x j] [y l] [K E]. now apply alike_again.
  Qed.

  Lemma alike_loop fuel : forall r s, alike r s -> both alike (loop m text fuel r) (loop m text fuel s).
  Proof.
    induction fuel as [|n IH]; intros r s H; [exact Logic.I|]. cbn [loop].
    apply both_bind with (R := alike_o); [now apply alike_step|].
    intros [a|a] [b|b] K; try contradiction; [now apply IH|exact K].
  Qed.

  Lemma alike_last r s : alike r s -> both alike (process_last_line m text r) (process_last_line m text s).
  Proof.
    intros H. unfold process_last_line. fields H. rewrite Fwlc, Flcc, Fls, (alike_kind r s H).
    destruct (r_wlc s || r_lcc s); [now apply alike_callback|exact H].
  Qed.
End Machine.

(** A parse in a process reports what a parse alone reports. *)
Lemma parse_in_alone (count : bool) m text fuel g :
  (if count then parse m text fuel else parse_entities m text fuel) =
  (x <- parse_in count m text fuel g ;; Ok (fst x)).
Proof.
  assert (E : forall k : rt -> res rt, (forall r s, alike r s -> both alike (k r) (k s)) ->
    bind (start m) (fun r => bind (loop m text fuel r) (fun r => bind (k r) (fun r => Ok (rev (r_out r))))) =
    bind (bind (start_in m g) (fun r => bind (loop m text fuel r) (fun r => bind (k r) (fun r => Ok (rev (r_out r), leaves r)))))
      (fun x => Ok (fst x))).
  { intros k Hk. unfold start, start_in. destruct (entry m 0) as [c|u|]; cbn [bind]; auto.
    match goal with |- bind (loop _ _ _ ?a) _ = bind (bind (loop _ _ _ ?b) _) _ =>
      assert (A : alike a b) by (split; cbn; [discriminate|reflexivity]);
      pose proof (alike_loop m text fuel a b A) as L;
      destruct (loop m text fuel a) as [x|?|], (loop m text fuel b) as [y|?|] end; cbn in L |- *; try contradiction; auto.
    2: congruence.
    pose proof (Hk x y L) as K. destruct (k x) as [x'|?|], (k y) as [y'|?|]; cbn in K |- *; try contradiction; auto.
    2: congruence.
    now rewrite (proj2 (alike_p _ _ K)). }
  destruct count; cbn [parse parse_in].
  - apply E. apply alike_last.
  - unfold parse_entities, parse_in. rewrite <- (E (fun r => Ok r)) by (intros; cbn; auto).
    destruct (start m) as [r|?|]; cbn; auto.
Qed.
