(** What acceptance by [check] means: for every buffer the parser stops within a number of
    steps given by the length, makes no invalid access and reports spans of the buffer. *)
From Coq Require Import ZArith String List Bool Lia.
From Verif Require Import Base ParsedModel RagelSyntax RagelBuild RagelRun ScanCheck.
Import ListNotations.
Open Scope Z_scope.

Ltac dand := repeat match goal with H : _ && _ = true |- _ => apply andb_prop in H; destruct H end.

Section Sound.
  Variable m : machine.
  Variable names : list string.
  Variables lenient counters : bool.
  Variable may : string -> string -> bool.
  Variable text : list Z.
  Let len := Z.of_nat (length text).
  Hypothesis Hlen : len <= int_max.

  Definition span (e : event) : Prop :=
    may (e_lang e) (e_entity e) = true /\ 0 <= e_start e < e_end e /\ e_end e <= len /\ In (e_lang e) names.

  (** Undefined behaviour the check does not exclude. *)
  Definition allowed (u : ub) : Prop :=
    (u = NullDeref /\ lenient = true) \/ (u = IntOverflow /\ counters = true).

  Definition okr {A} (P : A -> Prop) (x : res A) : Prop :=
    match x with Ok a => P a | Ub u => allowed u | OutOfFuel => False end.

  Lemma okr_bind {A B} (P : A -> Prop) (Q : B -> Prop) x f :
    okr P x -> (forall a, P a -> okr Q (f a)) -> okr Q (bind x f).
  Proof. destruct x; cbn; auto. Qed.

  Lemma okr_imp {A} (P Q : A -> Prop) x : (forall a, P a -> Q a) -> okr P x -> okr Q x.
  Proof. destruct x; cbn; auto. Qed.

  Record good (r : rt) : Prop := {
    g_ls : forall x, r_ls r = Some x -> 0 <= x <= len;
    g_last : r_inq r = true -> forall x, r_last_ls r = Some x -> 0 <= x < len;
    g_te : forall x, r_te r = Some x -> 0 <= x <= len;
    g_ts : forall x, r_ts r = Some x -> 0 <= x < len;
    g_line : r_lcc r || r_wlc r = true -> exists x, r_ls r = Some x /\ x < len;
    g_saved : r_inq r = true -> r_last_lcc r || r_last_wlc r = true -> r_last_ls r <> None;
    g_seen : forall s, r_seen r = Some s -> In s names;
    g_queue : Forall span (r_queue r);
    g_out : Forall span (r_out r) }.

  (** The abstract state describes the state; [p0] and [t0] are p and ts at the start of
      the step. *)
  Record rel (p0 : Z) (t0 : ptr) (a : ast) (r : rt) : Prop := {
    l_cs : r_cs r = a_cs a;
    l_stack : r_stack r = a_stack a;
    l_act : r_act r = a_act a;
    l_ts : match a_ts a with
           | TNone => r_ts r = None
           | TAny => True
           | TSome n => exists t, r_ts r = Some t /\ n <= r_p r - t
           end;
    l_te : forall n, a_te a = Some n -> exists t e, r_ts r = Some t /\ r_te r = Some e /\ n <= e - t;
    l_lsn : a_lsn a = true -> r_ls r <> None;
    l_ent : forall e, a_ent a = Some e -> r_ent r = e;
    l_abs : a_abs a <= r_p r;
    l_lt : a_lt a = true -> r_p r < len;
    l_dp : forall d x, a_dp a = Some (d, x) -> p0 + d <= r_p r /\ (x = true -> r_p r = p0 + d);
    l_lc : a_lc a = true -> r_lcc r || r_wlc r = true;
    l_nq : a_nq a = true -> r_inq r = false;
    l_tp : forall k, a_tp a = Some k -> exists e, r_te r = Some e /\ e - r_p r = k;
    l_in : a_in a = true -> forall x, r_ls r = Some x -> x < len;
    l_vars : forall v k, In (v, k) (a_vars a) ->
             exists u, r_ts r = Some u /\ Z.abs (var_get (r_vars r) v) <= r_p r - u + k;
    l_t0 : r_ts r = t0;
    l_p : r_p r <= len }.

  Definition both p0 t0 a r := rel p0 t0 a r /\ good r.

  Ltac crush :=
    repeat match goal with
           | H : both _ _ _ _ |- _ => destruct H
           | H : rel _ _ _ _ |- _ => destruct H
           | H : good _ |- _ => destruct H
           end;
    split; constructor; cbn in *; try solve [auto | intros; try discriminate; eauto | lia].

  (** ** Small operations *)
  Lemma both_ent p0 t0 a r e : both p0 t0 a r -> both p0 t0 (w_ent (Some e) a) (set_ent e r).
  Proof. intros H. crush. intros ? [= <-]; auto. Qed.

  Lemma both_known p0 t0 a r e : both p0 t0 a r -> r_ent r = e -> both p0 t0 (w_ent (Some e) a) r.
  Proof. intros H E. crush. intros ? [= <-]; auto. Qed.

  Lemma both_dec p0 t0 a r : both p0 t0 a r -> both p0 t0 (p_dec a) (set_p (r_p r - 1) r).
  Proof.
    intros H. crush.
    - destruct (a_ts a); cbn; auto. destruct l_ts0 as (t & -> & Hn). exists t; split; auto; lia.
    - intros d x. destruct (a_dp a) as [[d' x']|] eqn:E; cbn; try discriminate.
      intros [= <- <-]. destruct (l_dp0 _ _ eq_refl) as [? Hx]. split; [lia|]. intros ->. rewrite Hx; auto; lia.
    - intros k. destruct (a_tp a) as [k'|] eqn:E; cbn; try discriminate. intros [= <-].
      destruct (l_tp0 _ eq_refl) as (e & ? & ?). exists e; split; auto; lia.
    - intros v k Hin. apply in_map_iff in Hin. destruct Hin as ((v' & k') & [= <- <-] & Hin).
      destruct (l_vars0 _ _ Hin) as (u & ? & ?). exists u. split; auto. cbn. lia.
  Qed.

  Lemma both_pte p0 t0 a r b : both p0 t0 a r -> p_te a = Some b ->
    exists x, r_te r = Some x /\ both p0 t0 b (set_p (x - 1) r).
  Proof.
    unfold p_te. intros H. destruct (a_te a) as [n|] eqn:Ete; try discriminate.
    destruct (a_ts a) eqn:Ets; try discriminate. intros [= <-].
    destruct (l_te _ _ _ _ (proj1 H) _ Ete) as (t & e & Ht & He & Hn).
    exists e. split; auto.
    pose proof (g_te _ (proj2 H) _ He). pose proof (g_ts _ (proj2 H) _ Ht).
    crush.
    - exists t. split; auto; lia.
    - intros d x. destruct (a_tp a) as [k|] eqn:Ek; try discriminate.
      destruct (a_dp a) as [[d' x']|] eqn:Ed; cbn; try discriminate. intros [= <- <-].
      destruct (l_tp0 _ eq_refl) as (e' & He' & Hk). assert (e' = e) by congruence. subst e'.
      destruct (l_dp0 _ _ eq_refl) as [? Hx]. split; [lia|]. intros ->.
      specialize (Hx eq_refl). lia.
    - intros k [= <-]. exists e; split; auto; lia.
  Qed.

  Lemma both_te_next p0 t0 a r : both p0 t0 a r -> a_lt a = true -> -1 <= a_abs a ->
    both p0 t0 (w_te (te_next a) (Some 1) a) (set_te (Some (r_p r + 1)) r).
  Proof.
    intros H Hl Ha. pose proof (l_lt _ _ _ _ (proj1 H) Hl). pose proof (l_abs _ _ _ _ (proj1 H)).
    crush.
    - intros n. unfold te_next. destruct (a_ts a) eqn:E; try discriminate. intros [= <-].
      destruct l_ts0 as (t & ? & ?). exists t, (r_p r + 1). repeat split; auto; lia.
    - intros k [= <-]. exists (r_p r + 1). split; auto; lia.
    - intros x [= <-]. lia.
  Qed.

  Lemma both_te_here p0 t0 a r : both p0 t0 a r -> 0 <= a_abs a ->
    both p0 t0 (w_te (match a_ts a with TSome n => Some n | _ => None end) (Some 0) a) (set_te (Some (r_p r)) r).
  Proof.
    intros H Ha. pose proof (l_abs _ _ _ _ (proj1 H)). pose proof (l_p _ _ _ _ (proj1 H)).
    crush.
    - intros n. destruct (a_ts a) eqn:E; try discriminate. intros [= <-].
      destruct l_ts0 as (t & ? & ?). exists t, (r_p r). repeat split; auto; lia.
    - intros k [= <-]. exists (r_p r). split; auto; lia.
    - intros x [= <-]. lia.
  Qed.

  Lemma both_cs p0 t0 a r c : both p0 t0 a r -> both p0 t0 (w_cs c a) (set_cs c r).
  Proof. intros H. crush. Qed.
  Lemma both_stack p0 t0 a r c : both p0 t0 a r -> both p0 t0 (w_stack c a) (set_stack c r).
  Proof. intros H. crush. Qed.
  Lemma both_act p0 t0 a r c : both p0 t0 a r -> both p0 t0 (w_act c a) (set_actid c r).
  Proof. intros H. crush. Qed.
  Lemma var_get_set l v n w : var_get (var_set l v n) w = if w =? v then n else var_get l w.
  Proof.
    induction l as [|[x y] l IH]; cbn.
    - destruct (w =? v) eqn:E; auto.
    - destruct (v =? x) eqn:Ex; cbn.
      + destruct (w =? x) eqn:Ew, (w =? v) eqn:Ev; auto; lia.
      + destruct (w =? x) eqn:Ew; [destruct (w =? v) eqn:Ev; auto; lia|auto].
  Qed.
  Lemma both_vars p0 t0 a r vs l : both p0 t0 a r ->
    (forall v k, In (v, k) l -> exists u, r_ts r = Some u /\ Z.abs (var_get vs v) <= r_p r - u + k) ->
    both p0 t0 (w_vars l a) (set_vars vs r).
  Proof. intros H Hv. crush. Qed.
  Lemma v_drop_in v l w k : In (w, k) (v_drop v l) -> In (w, k) l /\ (w =? v) = false.
  Proof. unfold v_drop. rewrite filter_In. cbn. intros [? ?]. split; auto. destruct (w =? v); auto. Qed.
  Lemma both_var_drop p0 t0 a r v n : both p0 t0 a r ->
    both p0 t0 (w_vars (v_drop v (a_vars a)) a) (set_vars (var_set (r_vars r) v n) r).
  Proof.
    intros H. apply both_vars; auto. intros w k Hin. apply v_drop_in in Hin. destruct Hin as [Hin Hw].
    destruct (l_vars _ _ _ _ (proj1 H) _ _ Hin) as (u & ? & ?). exists u. rewrite var_get_set, Hw. auto.
  Qed.
  Lemma both_var_put p0 t0 a r v n k u : both p0 t0 a r -> r_ts r = Some u -> Z.abs n <= r_p r - u + k ->
    both p0 t0 (w_vars ((v, k) :: v_drop v (a_vars a)) a) (set_vars (var_set (r_vars r) v n) r).
  Proof.
    intros H Hu Hn. apply both_vars; auto. intros w k' [[= <- <-]|Hin].
    - exists u. rewrite var_get_set, Z.eqb_refl. auto.
    - apply v_drop_in in Hin. destruct Hin as [Hin Hw].
      destruct (l_vars _ _ _ _ (proj1 H) _ _ Hin) as (u' & ? & ?). exists u'. rewrite var_get_set, Hw. auto.
  Qed.
  Lemma varset_ok p0 t0 a r v n : both p0 t0 a r ->
    both p0 t0 (k_varset v n a) (set_vars (var_set (r_vars r) v n) r).
  Proof.
    intros H. unfold k_varset. pose proof (l_ts _ _ _ _ (proj1 H)) as Ht.
    destruct (a_ts a); auto using both_var_drop. destruct Ht as (u & Hu & Hn).
    eapply both_var_put; eauto. lia.
  Qed.
  Lemma both_seen p0 t0 a r v : both p0 t0 a r -> (forall s, v = Some s -> In s names) -> both p0 t0 a (set_seen v r).
  Proof. intros H Hv. crush. Qed.
  Lemma mem_in l : mem l names = true -> In l names.
  Proof.
    unfold mem. intros H. apply existsb_exists in H. destruct H as (x & Hx & E).
    apply String.eqb_eq in E. subst. auto.
  Qed.
  Lemma both_out p0 t0 a r e : both p0 t0 a r -> span e -> both p0 t0 a (set_out (e :: r_out r) r).
  Proof. intros H Hs. crush. Qed.
  Lemma both_queue p0 t0 a r e : both p0 t0 a r -> span e -> both p0 t0 a (set_queue (e :: r_queue r) r).
  Proof. intros H Hs. crush. Qed.

  Lemma both_pts p0 t0 a r : both p0 t0 a r -> ts_known (a_ts a) = true ->
    exists x, r_ts r = Some x /\ both p0 t0 (w_p (TSome 0) 0 true None None [] a) (set_p x r).
  Proof.
    intros H Hk. pose proof (l_ts _ _ _ _ (proj1 H)) as Ht.
    destruct (a_ts a); try discriminate. destruct Ht as (t & Ht & _).
    exists t. split; auto. pose proof (g_ts _ (proj2 H) _ Ht). crush.
    exists t. split; auto; lia.
  Qed.

  (** ** The line actions *)
  Lemma both_dequeue p0 t0 a r : both p0 t0 a r -> both p0 t0 (k_dequeue a) (dequeue r).
  Proof.
    intros H. unfold k_dequeue, dequeue. destruct (a_nq a) eqn:Eq.
    - rewrite (l_nq _ _ _ _ (proj1 H) Eq). auto.
    - destruct (r_inq r) eqn:Er; crush.
      + intros _ x Hx. apply g_last0 in Hx; auto; lia.
      + intros x Hx. apply g_last0 in Hx; auto; lia.
      + intros E. specialize (g_saved0 Er E). destruct (r_last_ls r) as [x|]; [|congruence].
        exists x. split; auto. apply (g_last0 Er x); auto.
  Qed.

  Lemma or_ptr_some a b : a <> None \/ b <> None -> or_ptr a b <> None.
  Proof. destruct a, b; cbn; intros [H|H]; congruence. Qed.

  Lemma ts_known_some p0 t0 a r : both p0 t0 a r -> ts_known (a_ts a) = true -> r_ts r <> None.
  Proof.
    intros H Hk. pose proof (l_ts _ _ _ _ (proj1 H)) as Ht. destruct (a_ts a); try discriminate.
    destruct Ht as (t & -> & _). discriminate.
  Qed.

  Lemma or_ptr_in p0 t0 a r x : both p0 t0 a r -> a_in a = true -> or_ptr (r_ls r) (r_ts r) = Some x -> x < len.
  Proof.
    intros H Hi. destruct (r_ls r) eqn:E; cbn; intros E2.
    - injection E2 as <-. eapply (l_in _ _ _ _ (proj1 H)); eauto.
    - apply (g_ts _ (proj2 H)) in E2. lia.
  Qed.
  Lemma or_ptr_rng p0 t0 a r x : both p0 t0 a r -> or_ptr (r_ls r) (r_ts r) = Some x -> 0 <= x <= len.
  Proof.
    intros H. destruct (r_ls r) eqn:E; cbn; intros E2.
    - injection E2 as <-. eapply (g_ls _ (proj2 H)); eauto.
    - apply (g_ts _ (proj2 H)) in E2. lia.
  Qed.

  Lemma both_ls p0 t0 a r : both p0 t0 a r -> both p0 t0 (k_ls a) (do_ls r).
  Proof.
    intros H. pose proof (ts_known_some _ _ _ _ H) as Hk.
    pose proof (fun x => or_ptr_in _ _ _ _ x H) as Hin.
    pose proof (fun x => or_ptr_rng _ _ _ _ x H) as Hr.
    unfold k_ls, do_ls. crush.
    - intros E. apply or_ptr_some. apply orb_prop in E. destruct E; auto.
    - intros E. destruct (g_line0 E) as (x & Hx & ?). rewrite Hx. cbn. eauto.
  Qed.

  Lemma both_code_line p0 t0 a r w c s :
    both p0 t0 a r -> c || w = true -> (exists x, s = Some x /\ 0 <= x < len) ->
    both p0 t0 (w_lsn true true (a_nq a) a) (set_line w c s r).
  Proof.
    intros H Hc (x & -> & Hx). crush.
    all: intros; repeat match goal with E : Some _ = Some _ |- _ => injection E as <- end; try lia.
    exists x. split; auto; lia.
  Qed.

  Lemma or_ptr_ex p0 t0 a r : both p0 t0 a r -> (ts_known (a_ts a) || a_lsn a) && a_in a = true ->
    exists x, or_ptr (r_ls r) (r_ts r) = Some x /\ 0 <= x < len.
  Proof.
    intros H E. dand. pose proof (fun x => or_ptr_in _ _ _ _ x H) as Hin.
    pose proof (fun x => or_ptr_rng _ _ _ _ x H) as Hr.
    assert (Hn : or_ptr (r_ls r) (r_ts r) <> None).
    { apply or_ptr_some. apply orb_prop in H0. destruct H0 as [E|E].
      - right. eapply ts_known_some; eauto.
      - left. apply (l_lsn _ _ _ _ (proj1 H)); auto. }
    destruct (or_ptr (r_ls r) (r_ts r)) as [x|]; [|congruence]. exists x. split; auto.
    specialize (Hin x H1 eq_refl). specialize (Hr x eq_refl). lia.
  Qed.

  Lemma both_code p0 t0 a r b : both p0 t0 a r -> k_code a = Some b -> both p0 t0 b (do_code r).
  Proof.
    intros H. unfold k_code. destruct (_ && _) eqn:E; try discriminate. intros [= <-].
    unfold do_code. apply both_code_line; auto.
    destruct (r_lcc r) eqn:El.
    - destruct (g_line _ (proj2 H)) as (x & Hx & ?); [rewrite El; auto|].
      exists x. split; auto. pose proof (g_ls _ (proj2 H) _ Hx). lia.
    - eapply or_ptr_ex; eauto.
  Qed.

  Lemma both_comment p0 t0 a r b : both p0 t0 a r -> k_code a = Some b -> both p0 t0 b (do_comment r).
  Proof.
    intros H. unfold k_code. destruct (_ && _) eqn:E; try discriminate. intros [= <-].
    unfold do_comment. destruct (r_lcc r) eqn:El.
    - destruct (g_line _ (proj2 H)) as (x & Hx & ?); [rewrite El; auto|].
      assert (Hr : r = set_line (r_wlc r) true (Some x) r).
      { rewrite <- El, <- Hx. destruct r; reflexivity. }
      rewrite Hr. apply both_code_line; auto. exists x. split; auto.
      pose proof (g_ls _ (proj2 H) _ Hx). lia.
    - apply both_code_line; auto. eapply or_ptr_ex; eauto.
  Qed.

  Lemma kind_ok r l : lines names may = true -> In l names -> may l (kind r) = true.
  Proof.
    unfold lines. intros H Hl. rewrite forallb_forall in H. specialize (H _ Hl). dand.
    unfold kind. destruct (r_lcc r), (r_wlc r); auto.
  Qed.

  Lemma both_reset p0 t0 a r :
    both p0 t0 a r -> r_inq r = false ->
    both p0 t0 (w_in true (w_lsn false false true a)) (set_line false false None r).
  Proof. intros H Hq. crush. Qed.

  Lemma dequeue_inq r : r_inq (dequeue r) = false.
  Proof. unfold dequeue. destruct (r_inq r) eqn:E; auto. Qed.
  Lemma dequeue_same r : r_p (dequeue r) = r_p r /\ r_ts (dequeue r) = r_ts r /\ r_te (dequeue r) = r_te r.
  Proof. unfold dequeue. destruct (r_inq r); auto. Qed.

  Lemma both_drop p0 t0 a r x y z : both p0 t0 a r ->
    (x = true -> a_lsn a = true) -> (y = true -> a_lc a = true) -> (z = true -> a_nq a = true) ->
    both p0 t0 (w_lsn x y z a) r.
  Proof. intros H Hx Hy Hz. crush. Qed.

  Lemma std_newline_ok p0 t0 a r b lang : lines names may = true -> In lang names ->
    both p0 t0 a r -> k_nl a = Some b -> okr (both p0 t0 b) (std_newline lang r).
  Proof.
    intros Hlk Hnm H Hk. unfold std_newline.
    pose proof (both_dequeue _ _ _ _ H) as H'.
    destruct (dequeue_same r) as (Ep & Et & Ee). pose proof (dequeue_inq r) as Eq.
    assert (Hb : b = w_in true (w_lsn false false true a)
                 /\ (r_lcc (dequeue r) || r_wlc (dequeue r) = true
                     \/ exists t e, r_ts r = Some t /\ r_te r = Some e /\ 1 <= e - t)).
    { unfold k_nl in Hk. destruct (a_lc a && a_nq a) eqn:E.
      - injection Hk as <-. split; auto. left. dand.
        unfold dequeue. rewrite (l_nq _ _ _ _ (proj1 H) H1). apply (l_lc _ _ _ _ (proj1 H)); auto.
      - destruct (a_te a) as [n|] eqn:E1; try discriminate. destruct (a_ts a) eqn:E2; try discriminate.
        destruct (1 <=? n) eqn:E3; try discriminate. injection Hk as <-. split; auto. right.
        destruct (l_te _ _ _ _ (proj1 H) _ E1) as (t & e & ? & ? & ?). exists t, e. repeat split; auto; lia. }
    destruct Hb as [-> Hc]. clear Hk.
    assert (Hfin : forall r', both p0 t0 (k_dequeue a) r' -> r_inq r' = false ->
                     both p0 t0 (w_in true (w_lsn false false true a)) (set_line false false None r')).
    { intros r' Hr' Hq'. assert (Hd : w_in true (w_lsn false false true a) = w_in true (w_lsn false false true (k_dequeue a))).
      { unfold k_dequeue. destruct (a_nq a); reflexivity. }
      rewrite Hd. apply both_reset; auto. }
    destruct (ptr_gt (r_te (dequeue r)) (r_ls (dequeue r))) eqn:Eg; cbn [bind okr]; [|apply Hfin; auto].
    unfold callback.
    assert (Hs : exists s e, (if r_lcc (dequeue r) || r_wlc (dequeue r) then r_ls (dequeue r) else r_ts (dequeue r)) = Some s
                 /\ r_te (dequeue r) = Some e /\ 0 <= s < e /\ e <= len).
    { destruct (r_te (dequeue r)) as [e|] eqn:E; [|discriminate].
      pose proof (g_te _ (proj2 H') _ E).
      destruct (r_lcc (dequeue r) || r_wlc (dequeue r)) eqn:El.
      - destruct (g_line _ (proj2 H')) as (x & Hx & ?); auto. rewrite Hx in Eg |- *.
        cbn in Eg. exists x, e. pose proof (g_ls _ (proj2 H') _ Hx). repeat split; auto; lia.
      - destruct Hc as [Hc|(t & e' & Ht & He' & ?)]; [congruence|].
        rewrite Et. exists t, e. assert (e' = e) by congruence. subst e'.
        pose proof (g_ts _ (proj2 H) _ Ht). repeat split; auto; lia. }
    destruct Hs as (s & e & -> & -> & Hse & Hel). cbn [cint bind okr].
    apply Hfin; [|exact Eq]. apply both_out; auto. split; [apply kind_ok; auto|]. cbn. repeat split; auto; lia.
  Qed.

  Lemma std_internal_ok p0 t0 a r lang : lines names may = true -> In lang names ->
    both p0 t0 a r -> a_lsn a || lenient = true -> 0 <= a_abs a ->
    okr (both p0 t0 (w_in (a_lt a) (w_lsn true false (a_nq a) a))) (std_internal_newline lang r).
  Proof.
    intros Hlk Hnm H Hl Ha. unfold std_internal_newline.
    pose proof (l_abs _ _ _ _ (proj1 H)) as Hp. pose proof (l_p _ _ _ _ (proj1 H)) as Hp'.
    assert (Hfin : forall r', both p0 t0 a r' ->  r_p r' = r_p r ->
               both p0 t0 (w_in (a_lt a) (w_lsn true false (a_nq a) a)) (set_line false false (Some (r_p r')) r')).
    { intros r' Hr' E'. rewrite <- E' in *. crush.
      all: intros; repeat match goal with E : Some _ = Some _ |- _ => injection E as <- end; try lia; auto. }
    destruct (ptr_gt (Some (r_p r)) (r_ls r)) eqn:Eg; cbn [bind okr]; [|apply Hfin; auto].
    destruct (r_ls r) as [s|] eqn:Els.
    - cbn in Eg. pose proof (g_ls _ (proj2 H) _ Els).
      assert (Hsp : span (mkEvent lang (kind r) s (r_p r))).
      { split; [apply kind_ok; auto|]. cbn. repeat split; auto; lia. }
      destruct (r_inq r); cbn [enqueue callback cint bind okr]; apply Hfin; auto using both_out, both_queue.
    - assert (Hn : lenient = true).
      { destruct lenient; auto. rewrite orb_false_r in Hl. apply (l_lsn _ _ _ _ (proj1 H)) in Hl. congruence. }
      destruct (r_inq r); cbn; left; auto.
  Qed.

  Lemma emb_ok (f : string -> rt -> res rt) p0 t0 b lang r :
    In lang names -> good r ->
    (forall l, In l names -> okr (both p0 t0 b) (f l r)) -> okr (both p0 t0 b) (emb f lang r).
  Proof.
    intros Hn Hg H. unfold emb. eapply okr_bind.
    - apply H. destruct (r_seen r) eqn:E; auto. apply (g_seen _ Hg); auto.
    - intros a Ha. cbn. apply both_seen; auto. discriminate.
  Qed.

  Lemma src_in i : 0 <= i < len -> exists c, src text i = Ok c /\ In c text.
  Proof.
    intros H. unfold src. replace (i <? 0) with false by lia.
    destruct (nth_error text (Z.to_nat i)) eqn:E.
    - exists z. split; auto. eapply nth_error_In; eauto.
    - apply nth_error_None in E. unfold len in H. lia.
  Qed.
  Lemma src_le i : 0 <= i <= len -> exists c, src text i = Ok c /\ (c <> 0 -> i < len).
  Proof.
    intros H. destruct (Z.eq_dec i len) as [->|].
    - exists 0. unfold src, len. replace (_ <? 0) with false by lia. rewrite Nat2Z.id.
      rewrite (proj2 (nth_error_None text (length text))) by lia. rewrite Z.eqb_refl. split; auto. congruence.
    - destruct (src_in i) as (c & ? & _); [lia|]. exists c. split; auto. lia.
  Qed.

  Lemma blank_entry_ok n : forall pos, 0 <= pos <= len -> len - pos < Z.of_nat n ->
    exists o, blank_entry n text pos = Ok o /\ (forall q, o = Some q -> pos <= q < len).
  Proof.
    induction n; intros pos Hp Hn; [lia|]. cbn [blank_entry].
    destruct (src_le pos) as (c & -> & Hc); auto. cbn [bind].
    destruct ((c =? 10) || (c =? 12)) eqn:E1.
    { exists (Some pos). split; auto. intros q [= <-]. apply orb_prop in E1. split; [lia|]. apply Hc. lia. }
    destruct (c =? 13) eqn:E2.
    { assert (pos < len) by (apply Hc; lia).
      destruct (src_le (pos + 1)) as (d & -> & Hd); [lia|]. cbn [bind].
      eexists. split; eauto. intros q [= <-]. destruct (d =? 10) eqn:E3; [|lia].
      assert (pos + 1 < len) by (apply Hd; lia). lia. }
    destruct ((c =? 9) || (c =? 32)) eqn:E3.
    { assert (pos < len) by (apply Hc; apply orb_prop in E3; lia).
      destruct (IHn (pos + 1)) as (o & -> & Ho); [lia|lia|]. exists o. split; auto.
      intros q Hq. apply Ho in Hq. lia. }
    exists None. split; auto. discriminate.
  Qed.

  Definition any (p0 : Z) (t0 : ptr) (l : list ast) (r : rt) : Prop := exists b, In b l /\ both p0 t0 b r.

  Lemma any_one p0 t0 b r : both p0 t0 b r -> any p0 t0 [b] r.
  Proof. exists b. split; auto. left; auto. Qed.

  Lemma macro_ok p0 t0 a r mc l : lines names may = true ->
    both p0 t0 a r -> k_macro names lenient mc a = Some l -> okr (any p0 t0 l) (exec_macro text mc r).
  Proof.
    intros Hlk H Hk. destruct mc; cbn [k_macro exec_macro] in *.
    - injection Hk as <-. cbn. apply any_one, both_ls, both_dequeue; auto.
    - destruct (k_code (k_dequeue a)) eqn:E; try discriminate. injection Hk as <-. cbn.
      apply any_one. eapply both_code; eauto. apply both_dequeue; auto.
    - destruct (k_code (k_dequeue a)) eqn:E; try discriminate. injection Hk as <-. cbn.
      apply any_one. eapply both_comment; eauto. apply both_dequeue; auto.
    - destruct (_ && _) eqn:E; try discriminate. injection Hk as <-. dand.
      eapply okr_imp; [intros; apply any_one; eassumption|]. apply std_internal_ok; auto using mem_in; lia.
    - destruct (mem _ _) eqn:Em; try discriminate.
      destruct (k_nl a) eqn:E; try discriminate. injection Hk as <-.
      eapply okr_imp; [intros; apply any_one; eassumption|]. eapply std_newline_ok; eauto using mem_in.
    - destruct (_ && _) eqn:E; try discriminate. injection Hk as <-. dand.
      eapply okr_imp; [intros; apply any_one; eassumption|]. apply emb_ok; [auto using mem_in|apply H|]. intros.
      apply std_internal_ok; auto; lia.
    - destruct (mem _ _) eqn:Em; try discriminate.
      destruct (k_nl a) eqn:E; try discriminate. injection Hk as <-.
      eapply okr_imp; [intros; apply any_one; eassumption|]. apply emb_ok; [auto using mem_in|apply H|]. intros.
      eapply std_newline_ok; eauto.
    - destruct (_ && _) eqn:E; try discriminate. dand.
      destruct (a_ts a) eqn:Ets; try discriminate.
      match goal with E : a_lt a = true |- _ => pose proof (l_lt _ _ _ _ (proj1 H) E) end. pose proof (l_abs _ _ _ _ (proj1 H)).
      unfold check_blank_entry.
      destruct (blank_entry_ok (S (length text)) (r_p r + 1)) as (o & -> & Ho); [lia|unfold len; lia|].
      cbn [bind]. destruct o as [q|].
      + destruct (k_nl _) eqn:Ek in Hk; try discriminate. injection Hk as <-.
        specialize (Ho q eq_refl).
        eapply okr_imp; [intros r' Hr'; exists a0; split; [right; left; auto|exact Hr']|].
        eapply std_newline_ok; [auto|auto using mem_in| |exact Ek].
        clear Ek. pose proof (l_ts _ _ _ _ (proj1 H)) as Ht. rewrite Ets in Ht. destruct Ht as (t & Ht & Hn).
        pose proof (l_dp _ _ _ _ (proj1 H)) as Hdp. pose proof (l_tp _ _ _ _ (proj1 H)) as Htp.
        crush.
        * exists t. split; auto. lia.
        * intros n' [= <-]. exists t, (q + 1). repeat split; auto; lia.
        * intros d x. destruct (a_dp a) as [[d' x']|]; cbn; try discriminate. intros [= <- <-].
          destruct (Hdp _ _ eq_refl). split; [lia|discriminate].
        * intros k [= <-]. exists (q + 1). split; auto; lia.
        * intros v k Hin. destruct (l_vars0 _ _ Hin) as (u & ? & ?). exists u. split; auto; lia.
        * intros x [= <-]. lia.
      + destruct (k_nl _) eqn:Ek in Hk; try discriminate. injection Hk as <-. cbn. exists a. split; auto. left; auto.
  Qed.

  Lemma oapp_in {A} (a b l : _) : @oapp A a b = Some l -> exists x y, a = Some x /\ b = Some y /\ l = x ++ y.
  Proof. destruct a, b; cbn; try discriminate. intros [= <-]. eauto. Qed.

  Lemma switch_ok p0 t0 r : lines names may = true -> forall l a k,
    both p0 t0 a r -> k_switch names lenient l a = Some k -> okr (any p0 t0 k) (switch text l r).
  Proof.
    intros Hlk. induction l as [|[e mc] l IH]; intros a k H Hk; cbn [k_switch switch] in *.
    - injection Hk as <-. cbn. apply any_one; auto.
    - destruct (a_ent a) as [x|] eqn:Ex.
      + rewrite (l_ent _ _ _ _ (proj1 H) _ Ex). destruct (x =? e); eauto using macro_ok.
      + apply oapp_in in Hk. destruct Hk as (k1 & k2 & Hk1 & Hk2 & ->).
        destruct (r_ent r =? e) eqn:Ee.
        * apply (okr_imp (any p0 t0 k1)).
          -- intros b (y & Hy & ?). exists y. split; auto. apply in_or_app; auto.
          -- eapply macro_ok; [auto| |exact Hk1]. apply both_known; auto; lia.
        * apply (okr_imp (any p0 t0 k2)); [|eapply IH; eauto].
          intros b (y & Hy & ?). exists y. split; auto. apply in_or_app; auto.
  Qed.

  (** ** Statements and instructions *)
  Definition anyj (p0 : Z) (t0 : ptr) (l : list (ast * bool)) (x : rt * bool) : Prop :=
    exists b, In (b, snd x) l /\ both p0 t0 b (fst x).

  Lemma anyj_one p0 t0 b r j : both p0 t0 b r -> anyj p0 t0 [(b, j)] (r, j).
  Proof. exists b. split; auto. left; auto. Qed.

  Lemma entry_ok i c : k_entry m i = Some c -> entry m i = Ok (Some c).
  Proof. unfold k_entry, entry, dfa_of. destruct (nth_error (m_dfas m) i); cbn [bind]; [intros [= <-]; auto|discriminate]. Qed.

  Lemma varadd_ok p0 t0 a r v n l :
    both p0 t0 a r -> k_varadd counters v n a = Some l ->
    okr (anyj p0 t0 l) (x <- ckint (var_get (r_vars r) v + n) ;; Ok (set_vars (var_set (r_vars r) v x) r, false)).
  Proof.
    intros H Hk.
    assert (Hd : counters = true -> l = [(w_vars (v_drop v (a_vars a)) a, false)] ->
                 okr (anyj p0 t0 l) (x <- ckint (var_get (r_vars r) v + n) ;; Ok (set_vars (var_set (r_vars r) v x) r, false))).
    { intros Hc ->. unfold ckint. destruct (_ && _); cbn; [apply anyj_one, both_var_drop; auto|]. right; auto. }
    assert (Hc : (if counters then Some [(w_vars (v_drop v (a_vars a)) a, false)] else None) = Some l ->
                 okr (anyj p0 t0 l) (x <- ckint (var_get (r_vars r) v + n) ;; Ok (set_vars (var_set (r_vars r) v x) r, false))).
    { destruct counters; try discriminate. intros [= <-]. auto. }
    unfold k_varadd in Hk. destruct (find _ (a_vars a)) as [[v' k]|] eqn:Ef; auto.
    destruct (a_lt a) eqn:El; auto. destruct (a_ts a) eqn:Et; auto.
    destruct (k + Z.abs n <=? 1) eqn:Ek; auto. injection Hk as <-.
    apply find_some in Ef. cbn in Ef. destruct Ef as [Hin Hv]. assert (v' = v) by lia. subst v'.
    destruct (l_vars _ _ _ _ (proj1 H) _ _ Hin) as (u & Hu & Hb).
    pose proof (g_ts _ (proj2 H) _ Hu). pose proof (l_lt _ _ _ _ (proj1 H) El).
    unfold ckint, int_max in *. destruct (_ && _) eqn:Eck.
    - cbn. apply anyj_one. eapply both_var_put; eauto. lia.
    - exfalso. apply andb_false_iff in Eck. unfold int_min in *. lia.
  Qed.

  Lemma stmt_ok p0 t0 a r s l :
    both p0 t0 a r -> k_stmt m names lenient counters may s a = Some l -> okr (anyj p0 t0 l) (exec_stmt m text s r).
  Proof.
    intros H Hk. destruct s as [e|sl| | | | | | | |lang ks| | | | | |i|i|]; cbn [k_stmt exec_stmt] in *.
    - injection Hk as <-. cbn. apply anyj_one, both_ent; auto.
    - destruct (lines names may) eqn:Elk; try discriminate.
      destruct (k_switch names lenient sl a) eqn:E; try discriminate. injection Hk as <-.
      eapply okr_bind; [eapply switch_ok; eauto|]. intros r' (b & Hb & ?). cbn.
      exists b. split; auto. cbn. apply in_map_iff. eauto.
    - destruct (k_code a) eqn:E; try discriminate. injection Hk as <-. cbn. apply anyj_one. eapply both_code; eauto.
    - destruct (k_code a) eqn:E; try discriminate. injection Hk as <-. cbn. apply anyj_one. eapply both_comment; eauto.
    - injection Hk as <-. cbn. apply anyj_one, both_ls; auto.
    - destruct (a_in a) eqn:E; try discriminate. injection Hk as <-. cbn. apply anyj_one.
      crush.
      + intros _ x Hx. pose proof (g_ls0 _ Hx). pose proof (l_in0 E _ Hx). lia.
      + intros _ Hc. destruct (g_line0 Hc) as (x & -> & _). discriminate.
    - injection Hk as <-. cbn. apply anyj_one. destruct (r_inq r) eqn:Eq; crush.
      apply Forall_app; auto.
    - injection Hk as <-. cbn. apply anyj_one. destruct (_ || _); auto. apply both_seen; auto. discriminate.
    - destruct (mem _ _) eqn:Em; try discriminate. apply mem_in in Em.
      injection Hk as <-. cbn. apply anyj_one. crush. intros ? [= <-]; auto.
    - destruct (a_ent a) as [e|] eqn:Ee; try discriminate. destruct (a_te a) as [n|] eqn:Et; try discriminate.
      destruct (_ && _) eqn:E; try discriminate. injection Hk as <-. dand.
      rewrite (l_ent _ _ _ _ (proj1 H) _ Ee). replace (e <? 0) with false by lia.
      destruct (nth_error ks (Z.to_nat e)) as [k|]; try discriminate.
      destruct (l_te _ _ _ _ (proj1 H) _ Et) as (t & u & Hts & Hte & Hn).
      unfold callback. rewrite Hts, Hte. cbn. apply anyj_one. apply both_out; auto.
      pose proof (g_ts _ (proj2 H) _ Hts). pose proof (g_te _ (proj2 H) _ Hte).
      repeat split; cbn; auto using mem_in; lia.
    - injection Hk as <-. cbn. apply anyj_one, varset_ok; auto.
    - eapply varadd_ok; eauto.
    - injection Hk as <-. cbn. apply anyj_one, both_var_drop; auto.
    - injection Hk as <-. cbn. apply anyj_one, both_dec; auto.
    - destruct (a_ts a) eqn:E; try discriminate. injection Hk as <-.
      destruct (both_pts _ _ _ _ H) as (x & Hx & Hb); [rewrite E; auto|]. rewrite Hx. cbn. apply anyj_one; auto.
    - destruct (k_entry m i) eqn:E; try discriminate. destruct (Nat.ltb _ _) eqn:El; try discriminate.
      injection Hk as <-. rewrite (entry_ok _ _ E). cbn [bind].
      rewrite (l_stack _ _ _ _ (proj1 H)), El, (l_cs _ _ _ _ (proj1 H)). cbn.
      apply anyj_one, both_cs, both_stack; auto.
    - destruct (k_entry m i) eqn:E; try discriminate. injection Hk as <-. rewrite (entry_ok _ _ E). cbn.
      apply anyj_one, both_cs; auto.
    - rewrite (l_stack _ _ _ _ (proj1 H)). destruct (a_stack a); try discriminate. injection Hk as <-. cbn.
      apply anyj_one, both_cs, both_stack; auto.
  Qed.

  Lemma seq_results_in (f : ast -> option (list (ast * bool))) : forall l k,
    seq_results f (fun a => a) l = Some k ->
    forall b j, In (b, j) l ->
      if j then In (b, true) k else exists k', f b = Some k' /\ incl k' k.
  Proof.
    induction l as [|[a ja] l IH]; intros k Hk b j Hin; [destruct Hin|].
    cbn [seq_results] in Hk. destruct ja.
    - destruct (seq_results f (fun a => a) l) eqn:E; try discriminate. injection Hk as <-.
      destruct Hin as [[= <- <-]|Hin]; [left; auto|].
      specialize (IH _ eq_refl _ _ Hin). destruct j; [right; auto|].
      destruct IH as (k' & ? & ?). exists k'. split; auto. intros z Hz. right; auto.
    - apply oapp_in in Hk. destruct Hk as (k1 & k2 & H1 & H2 & ->).
      destruct Hin as [[= <- <-]|Hin].
      + exists k1. split; auto. apply incl_appl, incl_refl.
      + specialize (IH _ H2 _ _ Hin). destruct j; [apply in_or_app; auto|].
        destruct IH as (k' & ? & ?). exists k'. split; auto. apply incl_appr; auto.
  Qed.

  Lemma anyj_incl p0 t0 k k' x : incl k k' -> anyj p0 t0 k x -> anyj p0 t0 k' x.
  Proof. intros Hi (b & Hb & ?). exists b. split; auto. Qed.

  Lemma body_ok p0 t0 : forall s a r l,
    both p0 t0 a r -> k_body m names lenient counters may s a = Some l -> okr (anyj p0 t0 l) (exec_body m text s r).
  Proof.
    induction s as [|s ss IH]; intros a r l H Hk; cbn [k_body exec_body] in *.
    - injection Hk as <-. cbn. apply anyj_one; auto.
    - unfold obnd in Hk. destruct (k_stmt m names lenient counters may s a) eqn:E; try discriminate.
      eapply okr_bind; [eapply stmt_ok; eauto|]. intros [r' j] (b & Hb & Hr). cbn in Hb, Hr.
      pose proof (seq_results_in _ _ _ Hk _ _ Hb) as Hs. destruct j.
      + cbn. exists b. auto.
      + destruct Hs as (k' & Hf & Hi). eapply okr_imp; [|eapply IH; eauto]. intros x. apply anyj_incl; auto.
  Qed.

  Lemma part_ok p0 t0 d i a r l :
    both p0 t0 a r -> k_part m names lenient counters may d i a = Some l -> okr (anyj p0 t0 l) (exec_part m text d i r).
  Proof.
    intros H. unfold k_part, exec_part. destruct (nth_error (df_parts d) i) as [[x|]|]; try discriminate.
    - eapply body_ok; eauto.
    - intros [= <-]. cbn. apply anyj_one; auto.
  Qed.

  Lemma instr_ok p0 t0 d i a r l :
    both p0 t0 a r -> k_instr m names lenient counters may d i a = Some l -> okr (anyj p0 t0 l) (exec_instr m text d i r).
  Proof.
    intros H. destruct i; cbn [k_instr exec_instr].
    - eapply body_ok; eauto.
    - destruct (_ && _) eqn:E; try discriminate. dand. intros [= <-]. cbn. apply anyj_one, both_te_next; auto; lia.
    - intros [= <-]. cbn. apply anyj_one, both_act; auto.
    - destruct (_ && _) eqn:E; try discriminate. dand. intros Hk. eapply part_ok; eauto. apply both_te_next; auto; lia.
    - destruct (0 <=? a_abs a) eqn:E; try discriminate. intros Hk. eapply part_ok; [|exact Hk].
      change (r_p r - 1) with (r_p (set_te (Some (r_p r)) r) - 1).
      apply both_dec, both_te_here; auto; lia.
    - unfold obnd. destruct (p_te a) eqn:E; try discriminate. intros Hk.
      destruct (both_pte _ _ _ _ _ H E) as (x & -> & Hb). cbn [cint bind]. eapply part_ok; eauto.
    - rewrite (l_act _ _ _ _ (proj1 H)). destruct (a_act a).
      + unfold obnd. destruct (p_te a) eqn:E; try discriminate. intros Hk.
        destruct (both_pte _ _ _ _ _ H E) as (x & -> & Hb). cbn [cint bind]. eapply part_ok; eauto.
      + intros [= <-]. cbn. apply anyj_one, both_cs; auto.
  Qed.

  Lemma instrs_ok p0 t0 d : forall s a r l,
    both p0 t0 a r -> k_instrs m names lenient counters may d s a = Some l -> okr (anyj p0 t0 l) (exec_instrs m text d s r).
  Proof.
    induction s as [|s ss IH]; intros a r l H Hk; cbn [k_instrs exec_instrs] in *.
    - injection Hk as <-. cbn. apply anyj_one; auto.
    - unfold obnd in Hk. destruct (k_instr m names lenient counters may d s a) eqn:E; try discriminate.
      eapply okr_bind; [eapply instr_ok; eauto|]. intros [r' j] (b & Hb & Hr). cbn in Hb, Hr.
      pose proof (seq_results_in _ _ _ Hk _ _ Hb) as Hs. destruct j.
      + cbn. exists b. auto.
      + destruct Hs as (k' & Hf & Hi). eapply okr_imp; [|eapply IH; eauto]. intros x. apply anyj_incl; auto.
  Qed.

  (** ** Steps *)
  Variable t : table.
  Hypothesis Hcheck : check m names lenient counters may t = true.
  Hypothesis Hbytes : forall c, In c text -> 0 <= c < 256.

  Lemma table_ok c b rk : In (b, rk) (t_get t c) ->
    a_cs b = Some c /\ 0 <= rk < (match phase_of m b with Other => weight | _ => 64 end)
    /\ 0 <= a_abs b /\ check_state m names lenient counters may t b rk = true.
  Proof.
    assert (H1 : check_table m names lenient counters may t = true) by (unfold check in Hcheck; dand; auto).
    intros Hin. unfold t_get in Hin.
    destruct (nth_error t (fst c)) as [x|] eqn:Ex; [|destruct Hin].
    destruct (PM.find (snd c) x) as [l|] eqn:El; [|destruct Hin].
    unfold check_table in H1. rewrite forallb_forall in H1.
    specialize (H1 (fst c, x)).
    assert (Hc : In (fst c, x) (combine (seq 0 (length t)) t)).
    { apply nth_error_In with (n := fst c).
      assert (Hlt : (fst c < length t)%nat) by (apply nth_error_Some; congruence).
      clear - Ex Hlt. revert Ex Hlt. generalize (fst c). intros n.
      assert (forall k n (t : table), nth_error t n = Some x -> nth_error (combine (seq k (length t)) t) n = Some ((k + n)%nat, x)).
      { clear. intros k n. revert k. induction n; intros k [|y t] H; cbn in *; try discriminate.
        - injection H as ->. f_equal. f_equal. lia.
        - rewrite (IHn (S k)) by auto. f_equal. f_equal. lia. }
      intros. rewrite (H 0%nat); auto. }
    specialize (H1 Hc). cbn [fst snd] in H1. rewrite forallb_forall in H1.
    specialize (H1 (snd c, l)).
    assert (He : In (snd c, l) (PM.elements x)).
    { apply PM.elements_correct in El. exact El. }
    specialize (H1 He). cbn [fst snd] in H1. rewrite forallb_forall in H1. specialize (H1 _ Hin).
    cbn [fst snd] in H1. dand. destruct (a_cs b) as [c'|]; [|discriminate].
    assert (c' = c).
    { unfold loc_eqb in *. dand.
      repeat match goal with
             | E : Nat.eqb _ _ = true |- _ => apply Nat.eqb_eq in E
             | E : Pos.eqb _ _ = true |- _ => apply Pos.eqb_eq in E
             end.
      destruct c, c'; cbn in *; congruence. }
    subst c'. repeat split; auto; lia.
  Qed.

  (** What is known about the byte at p. *)
  Definition class_at (p : Z) (cl : nat) : Prop :=
    exists c, src text p = Ok c /\ PM.find (Z.to_pos (c + 1)) (m_class m) = Some cl.
  Definition pk (k : apk) (p : Z) : Prop :=
    match k with PAny => True | PClass cl => p < len /\ class_at p cl | PEnd => p = len end.

  Record inv (b : ast) (rk : Z) (r : rt) : Prop := {
    i_in : exists c, r_cs r = Some c /\ In (b, rk) (t_get t c);
    i_rel : rel (r_p r) (r_ts r) (init_step b false) r;
    i_good : good r;
    i_pk : pk (a_peek b) (r_p r) }.

  Lemma again_ok now p0 t0 x r c y :
    both p0 t0 x r -> a_cs x = Some c -> k_again m now x = Some y -> a_lt x = true -> pk now p0 ->
    exists r', again m r = Ok (Go r') /\ r_p r' = r_p r + 1
      /\ (phase_of m y <> Start -> r_ts r' = r_ts r)
      /\ rel (r_p r') (r_ts r') (init_step y false) r' /\ good r' /\ pk (a_peek y) (r_p r') /\ r_cs r' = Some c.
  Proof.
    intros H Hc Hy Hl Hn. unfold k_again in Hy. rewrite Hc in Hy. destruct c as [i k].
    destruct (nth_error (m_dfas m) i) as [d|] eqn:Ed; try discriminate. injection Hy as <-.
    unfold again. rewrite (l_cs _ _ _ _ (proj1 H)), Hc. unfold dfa_of. rewrite Ed. cbn [bind].
    eexists. split; [reflexivity|].
    pose proof (l_lt _ _ _ _ (proj1 H) Hl) as Hp.
    assert (Hpk : pk (peek now (a_dp x)) (r_p r + 1)).
    { unfold peek. destruct (a_dp x) as [[dd [|]]|] eqn:Edp; try exact I.
      destruct (dd =? -1) eqn:E; [|exact I].
      destruct (l_dp _ _ _ _ (proj1 H) _ _ Edp) as [_ Hx]. specialize (Hx eq_refl).
      replace (r_p r + 1) with p0 by lia. auto. }
    assert (Htp : forall q, cap_tp (oadd (-1) (a_tp x)) = Some q -> exists e, r_te r = Some e /\ e - (r_p r + 1) = q).
    { intros q. destruct (a_tp x) as [n|] eqn:E; cbn; try discriminate.
      destruct (_ <=? _); try discriminate. intros [= <-].
      destruct (l_tp _ _ _ _ (proj1 H) _ E) as (e & ? & ?). exists e. split; auto; lia. }
    assert (Hdp : forall p d b, Some (0, true) = Some (d, b) -> p + d <= p /\ (b = true -> p = p + d)).
    { intros p dd b [= <- <-]. split; intros; lia. }
    assert (Hvs : forall v q, In (v, q) (match a_ts x with
                                          | TSome _ => map (fun y => (fst y, Z.max 0 (snd y - 1))) (a_vars x)
                                          | _ => [] end) ->
                 exists u, r_ts r = Some u /\ Z.abs (var_get (r_vars r) v) <= r_p r + 1 - u + q).
    { intros v q Hin. destruct (a_ts x); try destruct Hin. apply in_map_iff in Hin.
      destruct Hin as ((v' & k') & [= <- <-] & Hin).
      destruct (l_vars _ _ _ _ (proj1 H) _ _ Hin) as (u & ? & ?). exists u. split; auto. cbn. lia. }
    destruct (is_scan_start d k) eqn:Es.
    - split; [reflexivity|]. split.
      { intros Hph. exfalso. apply Hph. unfold phase_of. cbn. rewrite Ed, Es. reflexivity. }
      destruct H as [[] []]. split; [|split; [|split; [exact Hpk|cbn; congruence]]].
      + constructor; cbn; auto; try discriminate; try congruence; try lia; try tauto; unfold cap; lia.
      + constructor; cbn; auto. discriminate.
    - split; [reflexivity|]. split; [reflexivity|].
      destruct H as [[] []]. split; [|split; [|split; [exact Hpk|cbn; congruence]]].
      + constructor; cbn; auto; try discriminate; try congruence; try lia.
        * destruct (a_ts x); auto. destruct l_ts0 as (ts & ? & ?). exists ts. unfold cap. split; auto; lia.
        * intros n. destruct (a_te x) as [n'|] eqn:E; cbn; try discriminate. intros [= <-].
          destruct (l_te0 _ eq_refl) as (ts & e & ? & ? & ?). exists ts, e. unfold cap. repeat split; auto; lia.
        * unfold cap; lia.
      + constructor; cbn; auto.
  Qed.

  Lemma oloc_eqb_eq a b : oloc_eqb a b = true -> a = b.
  Proof.
    unfold oloc_eqb, loc_eqb. destruct a as [[i k]|], b as [[j n]|]; cbn; intros; auto; try discriminate. dand.
    apply Nat.eqb_eq in H. apply Pos.eqb_eq in H0. congruence.
  Qed.
  Lemma stack_eqb_eq a : forall b, stack_eqb a b = true -> a = b.
  Proof.
    induction a; intros [|y b]; cbn; intros; auto; try discriminate. dand.
    apply oloc_eqb_eq in H. f_equal; auto.
  Qed.
  Lemma onat_eqb_eq a b : onat_eqb a b = true -> a = b.
  Proof. destruct a, b; cbn; intros; auto; try discriminate. apply Nat.eqb_eq in H. congruence. Qed.

  Lemma le_bool a b : a || negb b = true -> b = true -> a = true.
  Proof. destruct a, b; auto. Qed.

  Lemma a_le_ok y b p ts r :
    a_le y b = true -> rel p ts (init_step y false) r -> pk (a_peek y) (r_p r) ->
    rel p ts (init_step b false) r /\ pk (a_peek b) (r_p r) /\ a_cs y = a_cs b.
  Proof.
    unfold a_le. intros H Hr Hk. dand.
    repeat match goal with E : _ || negb _ = true |- _ => pose proof (le_bool _ _ E); clear E end.
    repeat match goal with
           | E : oloc_eqb _ _ = true |- _ => apply oloc_eqb_eq in E
           | E : stack_eqb _ _ = true |- _ => apply stack_eqb_eq in E
           | E : onat_eqb _ _ = true |- _ => apply onat_eqb_eq in E
           | E : forallb _ (a_vars b) = true |- _ => rewrite forallb_forall in E; rename E into Hv
           end.
    destruct Hr; cbn in *. split; [|split; auto].
    - constructor; cbn; auto; try congruence.
      + unfold ts_le in *. destruct (a_ts b), (a_ts y); auto; try discriminate.
        destruct l_ts0 as (u & ? & ?). exists u. split; auto; lia.
      + unfold te_le in *. intros n E. rewrite E in *. destruct (a_te y) as [n'|]; [|discriminate].
        destruct (l_te0 _ eq_refl) as (u & e & ? & ? & ?). exists u, e. repeat split; auto; lia.
      + intros e E. rewrite E in *. destruct (a_ent y) as [e'|]; [|discriminate].
        rewrite (l_ent0 _ eq_refl). lia.
      + lia.
      + intros k E. rewrite E in *. destruct (a_tp y) as [k'|]; [|discriminate].
        assert (k' = k) by lia. subst. auto.
      + intros v k Hin. specialize (Hv _ Hin). apply existsb_exists in Hv.
        destruct Hv as ((v' & k') & Hin' & Hv). cbn in Hv. dand. assert (v' = v) by lia. subst v'.
        destruct (l_vars0 _ _ Hin') as (u & ? & ?). exists u. split; auto; lia.
    - destruct (a_peek b); [exact I| |].
      + destruct (a_peek y); try discriminate.
        match goal with E : Nat.eqb _ _ = true |- _ => apply Nat.eqb_eq in E end. subst. auto.
      + destruct (a_peek y); try discriminate. auto.
  Qed.

  Lemma phase_start y b : a_cs y = a_cs b -> phase_of m y = Start -> phase_of m b = Start.
  Proof.
    unfold phase_of. intros ->. destruct (a_cs b) as [[i k]|]; auto.
    destruct (nth_error (m_dfas m) i); auto. destruct (is_scan_start d k); auto.
    destruct (_ && _); discriminate.
  Qed.

  Lemma covered_ok now from rk p0 t0 x r :
    both p0 t0 x r -> covered m t now from rk x = true -> pk now p0 ->
    (again m r = Ok (Stop r))
    \/ exists r' b rk', again m r = Ok (Go r') /\ inv b rk' r'
         /\ decreases from rk (phase_of m b) rk' (final_lo x) (a_dp x) = true
         /\ r_p r' = r_p r + 1 /\ (phase_of m b <> Start -> r_ts r' = r_ts r).
  Proof.
    intros H Hc Hn. unfold covered in Hc. destruct (a_cs x) as [c|] eqn:Ec.
    - right. destruct (k_again m now x) as [y|] eqn:Ey; [|discriminate]. dand.
      apply existsb_exists in H1. destruct H1 as ([b rk'] & Hin & Hle). cbn [fst snd] in Hle. dand.
      destruct (again_ok _ _ _ _ _ _ _ H Ec Ey H0 Hn) as (r' & Hr' & Hp & Hts & Hrel & Hg & Hpk & Hcs).
      destruct (a_le_ok _ _ _ _ _ H1 Hrel Hpk) as (Hrel' & Hpk' & Ecs).
      exists r', b, rk'. split; auto. split.
      { constructor; eauto. }
      split; auto. split; auto. intros Hph. apply Hts. intros E. apply Hph. eapply phase_start; eauto.
    - left. unfold again. rewrite (l_cs _ _ _ _ (proj1 H)), Ec. auto.
  Qed.

  (** ** The measure *)
  Definition mA : Z := 8 * len + 64.
  Definition mJ : Z := mA + 2.
  Definition mK : Z := 8 * mJ.
  Definition mu (b : ast) (rk : Z) (r : rt) : Z :=
    match phase_of m b with
    | Start => mK * (len - r_p r) + mA
    | Inside => mK * (len - match r_ts r with Some u => u | None => 0 end) + 8 * (len - r_p r) + rk
    | Other => mK * (len - r_p r) + mJ * rk + mA + 1
    end.

  Lemma len_pos : 0 <= len. Proof. unfold len. lia. Qed.

  Lemma inv_p b rk r : inv b rk r -> 0 <= r_p r <= len.
  Proof.
    intros []. destruct i_in0 as (c & _ & Hin). apply table_ok in Hin. destruct Hin as (_ & _ & Ha & _).
    destruct i_rel0. cbn in *. lia.
  Qed.
  Lemma inv_rk b rk r : inv b rk r -> 0 <= rk < (match phase_of m b with Other => weight | _ => 64 end).
  Proof. intros []. destruct i_in0 as (c & _ & Hin). apply table_ok in Hin. tauto. Qed.

  Lemma inside_ts a : phase_of m a = Inside -> ts_known (a_ts a) = true.
  Proof.
    unfold phase_of. destruct (a_cs a) as [[i k]|]; try discriminate.
    destruct (nth_error (m_dfas m) i); try discriminate. destruct (is_scan_start d k); try discriminate.
    destruct (df_scan d && ts_known (a_ts a)) eqn:E; try discriminate. dand. auto.
  Qed.
  Lemma inv_ts b rk r : inv b rk r -> phase_of m b = Inside -> exists u, r_ts r = Some u /\ 0 <= u < len.
  Proof.
    intros H Hp. apply inside_ts in Hp. destruct H. pose proof (l_ts _ _ _ _ i_rel0) as Ht.
    cbn in Ht. destruct (a_ts b); try discriminate. destruct Ht as (u & Hu & _). exists u. split; auto.
    apply (g_ts _ i_good0). auto.
  Qed.

  Lemma mu_pos b rk r : inv b rk r -> 0 <= mu b rk r.
  Proof.
    intros H. pose proof (inv_p _ _ _ H). pose proof (inv_rk _ _ _ H). pose proof len_pos.
    unfold mu. destruct (phase_of m b) eqn:E.
    - unfold mK, mJ, mA. nia.
    - destruct (inv_ts _ _ _ H E) as (u & -> & ?). unfold mK, mJ, mA. nia.
    - unfold mK, mJ, mA. nia.
  Qed.

  Lemma mu_less a rk r0 t0 x r b rk' r' :
    inv a rk r0 -> both (r_p r0) t0 x r ->
    (phase_of m a = Start -> t0 = Some (r_p r0)) -> (phase_of m a = Inside -> t0 = r_ts r0) ->
    inv b rk' r' -> decreases (phase_of m a) rk (phase_of m b) rk' (final_lo x) (a_dp x) = true ->
    r_p r' = r_p r + 1 -> (phase_of m b <> Start -> r_ts r' = r_ts r) ->
    mu b rk' r' < mu a rk r0.
  Proof.
    intros Ha Hx Hst Hin Hb Hd Hp Hts.
    pose proof (inv_p _ _ _ Ha) as Pa. pose proof (inv_p _ _ _ Hb) as Pb.
    pose proof (inv_rk _ _ _ Ha) as Ra. pose proof (inv_rk _ _ _ Hb) as Rb. pose proof len_pos as Hl.
    pose proof (l_t0 _ _ _ _ (proj1 Hx)) as Ht0.
    assert (Hpast : match final_lo x with Some n => 0 <=? n | None => false end = true ->
                    exists u, t0 = Some u /\ u <= r_p r /\ 0 <= u).
    { unfold final_lo. pose proof (l_ts _ _ _ _ (proj1 Hx)) as Ht. destruct (a_ts x); try discriminate.
      destruct Ht as (u & Hu & ?). intros. exists u. pose proof (g_ts _ (proj2 Hx) _ Hu). repeat split; try congruence; lia. }
    assert (Hmoved : forall dd xx, a_dp x = Some (dd, xx) -> r_p r0 + dd <= r_p r).
    { intros dd xx E. apply (l_dp _ _ _ _ (proj1 Hx) _ _ E). }
    unfold decreases in Hd. unfold mu.
    destruct (phase_of m a) eqn:Ea, (phase_of m b) eqn:Eb; try discriminate.
    - specialize (Hst eq_refl). destruct (Hpast Hd) as (u & Hu & ?). assert (u = r_p r0) by congruence. subst u.
      unfold mK, mJ, mA. nia.
    - specialize (Hst eq_refl). rewrite (Hts ltac:(discriminate)), Ht0, Hst.
      unfold mK, mJ, mA. nia.
    - specialize (Hst eq_refl). destruct (Hpast Hd) as (u & Hu & ?). assert (u = r_p r0) by congruence. subst u.
      unfold weight in *. assert (mJ * rk' <= mJ * 7) by (unfold mJ, mA; nia).
      unfold mK in *. assert (8 * mJ * (len - r_p r') <= 8 * mJ * (len - r_p r0) - 8 * mJ) by (unfold mJ, mA; nia).
      unfold mJ, mA in *. lia.
    - specialize (Hin eq_refl). destruct (Hpast Hd) as (u & Hu & ?).
      rewrite <- Hin, Hu. assert (mK * (len - r_p r') <= mK * (len - u) - mK) by (unfold mK, mJ, mA; nia).
      unfold mK, mJ, mA in *. lia.
    - specialize (Hin eq_refl). rewrite (Hts ltac:(discriminate)), Ht0, Hin.
      destruct (a_dp x) as [[dd xx]|] eqn:Ed; [|discriminate]. specialize (Hmoved _ _ eq_refl).
      unfold weight in *. lia.
    - specialize (Hin eq_refl). destruct (Hpast Hd) as (u & Hu & ?).
      rewrite <- Hin, Hu. unfold weight in *. assert (mJ * rk' <= mJ * 7) by (unfold mJ, mA; nia).
      assert (mK * (len - r_p r') <= mK * (len - u) - mK) by (unfold mK, mJ, mA; nia).
      unfold mK, mJ, mA in *. lia.
    - destruct (a_dp x) as [[dd xx]|] eqn:Ed; [|discriminate]. specialize (Hmoved _ _ eq_refl).
      assert (mK * (len - r_p r') <= mK * (len - r_p r0)) by (unfold mK, mJ, mA; nia).
      assert (0 <= mJ * rk) by (unfold mJ, mA; nia). lia.
    - destruct (a_dp x) as [[dd xx]|] eqn:Ed; [|discriminate]. specialize (Hmoved _ _ eq_refl).
      unfold weight in *. unfold mK.
      replace (8 * mJ * (len - r_p r') + mJ * rk' + mA + 1) with (mJ * (8 * (len - r_p r') + rk') + mA + 1) by lia.
      replace (8 * mJ * (len - r_p r0) + mJ * rk + mA + 1) with (mJ * (8 * (len - r_p r0) + rk) + mA + 1) by lia.
      assert (8 * (len - r_p r') + rk' < 8 * (len - r_p r0) + rk) by lia.
      assert (0 < mJ) by (unfold mJ, mA; lia). nia.
  Qed.

  Definition after (a : ast) (rk : Z) (r0 : rt) (o : outcome) : Prop :=
    match o with
    | Stop r => good r
    | Go r => exists b rk', inv b rk' r /\ mu b rk' r < mu a rk r0
    end.

  Lemma finish_ok now a rk r0 t0 x r :
    inv a rk r0 -> both (r_p r0) t0 x r -> covered m t now (phase_of m a) rk x = true -> pk now (r_p r0) ->
    (phase_of m a = Start -> t0 = Some (r_p r0)) -> (phase_of m a = Inside -> t0 = r_ts r0) ->
    okr (after a rk r0) (again m r).
  Proof.
    intros Ha Hx Hc Hn Hs Hi. destruct (covered_ok _ _ _ _ _ _ _ Hx Hc Hn) as [->|(r' & b & rk' & -> & Hb & Hd & Hp & Hts)].
    - cbn. apply Hx.
    - cbn. exists b, rk'. split; auto. eapply mu_less; eauto.
  Qed.

  Lemma select_ok bb : forall r, 0 <= r_p r < len ->
    exists e, select text bb r = Ok e /\ In e (branch_edges bb).
  Proof.
    induction bb; intros r Hp; cbn [select branch_edges].
    - exists e. split; auto. left; auto.
    - assert (He : exists v, eval_cond text c r = Ok v).
      { destruct c; cbn [eval_cond]; eauto.
        - destruct (_ <? _) eqn:E; eauto. destruct (src_in (r_p r + 1)) as (z & -> & _); [unfold len; lia|]. cbn. eauto.
        - destruct (r_p r =? 0) eqn:E; eauto. destruct (src_in (r_p r - 1)) as (z & -> & _); [lia|]. cbn. eauto. }
      destruct He as (v & ->). cbn [bind]. destruct v.
      + destruct (IHbb1 r Hp) as (e & ? & ?). exists e. split; auto. apply in_or_app; auto.
      + destruct (IHbb2 r Hp) as (e & ? & ?). exists e. split; auto. apply in_or_app; auto.
  Qed.

  Lemma classes_ok i d k q c : nth_error (m_dfas m) i = Some d -> PM.find k (df_sts d) = Some q -> 0 <= c < 256 ->
    exists cl bb, PM.find (Z.to_pos (c + 1)) (m_class m) = Some cl /\ nth_error (q_row q) cl = Some bb.
  Proof.
    intros Hd Hq Hc. 
    assert (H : good_classes m = true) by (unfold check in Hcheck; dand; auto). unfold good_classes in H.
    cbv zeta in H. apply andb_prop in H as [H H']. rewrite forallb_forall in H, H'.
    assert (Hin : In c all_bytes).
    { unfold all_bytes. apply in_map_iff. exists (Z.to_nat c). split; [lia|]. apply in_seq. lia. }
    specialize (H _ Hin). destruct (PM.find _ (m_class m)) as [cl|]; [|discriminate].
    specialize (H' _ (nth_error_In _ _ Hd)). rewrite forallb_forall in H'.
    specialize (H' _ (PM.elements_correct _ _ Hq)). cbn [snd] in H'. apply Nat.ltb_lt in H'. apply Nat.leb_le in H.
    destruct (nth_error (q_row q) cl) as [bb|] eqn:E; [eauto|]. apply nth_error_None in E. lia.
  Qed.

  Lemma combine_seq_in {A} (l : list A) n x k : nth_error l n = Some x -> In ((k + n)%nat, x) (combine (seq k (length l)) l).
  Proof.
    revert l k. induction n; intros [|y l] k H; cbn in *; try discriminate.
    - injection H as ->. left. f_equal. lia.
    - right. replace (k + S n)%nat with (S k + n)%nat by lia. apply IHn. auto.
  Qed.

  Lemma all_results_ok P l x : all_results P l = true -> forall k, l = Some k -> In x k -> P x = true.
  Proof. intros H k ->. cbn in H. rewrite forallb_forall in H. auto. Qed.

  (** What is right whatever the byte is right for the byte. *)
  Lemma a_le_peek cs st ac ts te lsn ent ab lt dp pk lc nq tp ins vs b :
    a_le (mkA cs st ac ts te lsn ent ab lt dp PAny lc nq tp ins vs) b = true ->
    a_le (mkA cs st ac ts te lsn ent ab lt dp pk lc nq tp ins vs) b = true.
  Proof.
    unfold a_le. cbn [a_cs a_stack a_act a_ts a_te a_lsn a_ent a_abs a_peek a_lc a_nq a_tp a_in a_vars].
    destruct (a_peek b); [auto| |]; rewrite !andb_false_r, !andb_false_l; discriminate.
  Qed.
  Lemma peek_any d i s n e from rk :
    all_results (fun x => covered m t PAny from rk (fst x)) (k_edge m names lenient counters may d i s e) = true ->
    all_results (fun x => covered m t (PClass n) from rk (fst x)) (k_edge m names lenient counters may d i s e) = true.
  Proof.
    unfold all_results. destruct (k_edge _ _ _ _ _ _ _ _ _) as [l|]; auto. rewrite !forallb_forall.
    intros H x Hx. specialize (H _ Hx). clear Hx. generalize dependent (fst x). clear x. intros x H. unfold covered in *.
    destruct (a_cs x) as [c|] eqn:Ec; auto.
    unfold k_again in *. rewrite Ec in *. destruct c as [j k]. destruct (nth_error (m_dfas m) j) as [d'|]; auto.
    apply andb_prop in H as [H1 H2]. rewrite H1. cbn [andb].
    apply existsb_exists in H2. destruct H2 as (b & Hb & H2). apply existsb_exists. exists b. split; auto.
    apply andb_prop in H2 as [H2 ->]. rewrite andb_true_r.
    assert (E : peek PAny (a_dp x) = PAny) by (unfold peek; destruct (a_dp x) as [[z [|]]|]; auto; destruct (z =? -1); auto).
    rewrite E in H2. cbv zeta in *. exact (a_le_peek _ _ _ _ _ _ _ _ _ _ _ _ _ _ _ _ _ H2).
  Qed.

  Lemma inv_both b rk r : inv b rk r -> both (r_p r) (r_ts r) (init_step b false) r.
  Proof. intros []. split; auto. Qed.

  Lemma step_ok b rk r : inv b rk r -> okr (after b rk r) (step m text r).
  Proof.
    intros Hi. pose proof (inv_p _ _ _ Hi) as Hp. pose proof (inv_both _ _ _ Hi) as Hb.
    destruct (i_in _ _ _ Hi) as ([i k] & Hcs & Hin). apply table_ok in Hin. destruct Hin as (Hbc & Hrk & Habs & Hst).
    unfold check_state in Hst. rewrite Hbc in Hst. unfold step. rewrite Hcs. unfold dfa_of, state_of.
    destruct (nth_error (m_dfas m) i) as [d|] eqn:Ed; [|discriminate]. cbn [bind].
    destruct (PM.find k (df_sts d)) as [q|] eqn:Eq; [|discriminate]. cbn [bind].
    apply andb_prop in Hst. destruct Hst as [Hbyte Heof].
    fold len. destruct (r_p r =? len) eqn:Ep.
    - (* the end *)
      assert (Hpl : r_p r = len) by lia.
      assert (Hpe : pk PEnd (r_p r)) by exact Hpl.
      destruct (a_peek b) eqn:Epk.
      2: { pose proof (i_pk _ _ _ Hi) as Hk. rewrite Epk in Hk. destruct Hk. lia. }
      all: destruct (q_eof_to q) as [s|].
      all: match type of Heof with all_results _ ?ko = true => destruct ko as [l|] eqn:El; [|discriminate] end.
      all: match goal with
           | |- okr _ (bind (exec_instrs _ _ _ _ (set_cs ?c _)) _) =>
             eapply okr_bind; [eapply instrs_ok; [apply both_cs; exact Hb|exact El]|]
           | _ => eapply okr_bind; [eapply instrs_ok; [exact Hb|exact El]|]
           end.
      all: intros [r' j] (x & Hx & Hr); cbn [fst snd] in Hx, Hr.
      all: pose proof (all_results_ok _ _ _ Heof _ eq_refl Hx) as Hends; cbn [fst snd] in Hends.
      all: try (destruct j; [|exact (proj2 Hr)]).
      all: unfold ends in Hends; cbn [fst snd] in Hends.
      all: destruct (a_cs x) as [cx|] eqn:Ecx;
           [|unfold again; rewrite (l_cs _ _ _ _ (proj1 Hr)), Ecx; exact (proj2 Hr)].
      all: destruct (phase_of m b) eqn:Eph; try discriminate.
      all: eapply finish_ok; try rewrite Eph; eauto; try congruence.
    - (* a byte *)
      assert (Hpl : 0 <= r_p r < len) by lia.
      set (r1 := if is_scan_start d k then set_ts (Some (r_p r)) r else r).
      assert (Hr1 : r_p r1 = r_p r) by (unfold r1; destruct (is_scan_start d k); auto).
      assert (Hb1 : both (r_p r) (r_ts r1) (k_start d k b) r1).
      { unfold k_start, r1. destruct Hb as [[] []]. cbn in *.
        destruct (is_scan_start d k); split; constructor; cbn; auto; try lia; try discriminate.
        all: try (exists (r_p r); split; auto; lia).
        all: intros; repeat match goal with E : Some _ = Some _ |- _ => injection E as <- end; try lia. }
      rewrite Hr1. destruct (src_in (r_p r) Hpl) as (c & Hsrc & Hc). rewrite Hsrc. cbn [bind].
      destruct (classes_ok _ _ _ _ c Ed Eq (Hbytes _ Hc)) as (cl & bb & Hcl & Hbb).
      rewrite Hcl. cbn [bind]. rewrite Hbb. cbn [bind].
      destruct (select_ok bb r1) as (e & He & Hine); [rewrite Hr1; auto|]. rewrite He. cbn [bind].
      assert (Hcell : In (cl, bb) (cells b q)).
      { unfold cells. apply filter_In. split.
        - apply (combine_seq_in _ _ _ 0%nat Hbb).
        - pose proof (i_pk _ _ _ Hi) as Hk. cbn. destruct (a_peek b); auto.
          + destruct Hk as [_ (c' & Hc' & Hcl')]. rewrite Hsrc in Hc'. injection Hc' as <-.
            rewrite Hcl in Hcl'. injection Hcl' as <-. apply Nat.eqb_refl.
          + cbn in Hk. lia. }
      eapply row_ok_in in Hbyte; [|intros n0 e0 H0; eapply peek_any; exact H0|intros ? ? []|exact Hcell|exact Hine].
      unfold k_edge in Hbyte.
      match type of Hbyte with all_results _ ?ko = true => destruct ko as [l|] eqn:El; [|discriminate] end.
      eapply okr_bind; [eapply instrs_ok; [apply both_cs; exact Hb1|exact El]|].
      intros [r' j] (x & Hx & Hr). cbn [fst snd] in Hx, Hr.
      pose proof (all_results_ok _ _ _ Hbyte _ eq_refl Hx) as Hcov. cbn [fst snd] in Hcov.
      eapply finish_ok; eauto.
      + cbn. split; [lia|]. exists c. auto.
      + intros Hph. unfold r1. unfold phase_of in Hph. rewrite Hbc, Ed in Hph.
        destruct (is_scan_start d k); [reflexivity|]. destruct (_ && _); discriminate.
      + intros Hph. unfold r1. unfold phase_of in Hph. rewrite Hbc, Ed in Hph.
        destruct (is_scan_start d k); [discriminate|reflexivity].
  Qed.

  Lemma loop_ok fuel : forall b rk r, inv b rk r -> mu b rk r < Z.of_nat fuel -> okr good (loop m text fuel r).
  Proof.
    induction fuel; intros b rk r Hi Hf.
    - pose proof (mu_pos _ _ _ Hi). lia.
    - cbn [loop]. eapply okr_bind; [apply step_ok; eauto|]. intros [r'|r'] Ho; cbn in Ho.
      + destruct Ho as (b' & rk' & Hi' & Hl). eapply IHfuel; eauto. lia.
      + exact Ho.
  Qed.

  Lemma last_ok r : lines names may = true -> good r -> okr good (process_last_line m text r).
  Proof.
    intros Hlk H. unfold process_last_line. destruct (r_wlc r || r_lcc r) eqn:E; [|exact H].
    rewrite orb_comm in E. destruct (g_line _ H E) as (x & Hx & Hl). pose proof (g_ls _ H _ Hx).
    unfold callback. rewrite Hx. cbn. fold len. destruct H. constructor; cbn; auto.
    assert (Hn : In (m_lang m) names) by (apply mem_in; unfold check in Hcheck; dand; auto).
    constructor; auto. split; [apply kind_ok; auto|cbn]. repeat split; auto; try lia.
  Qed.

  (** The run from the start. *)
  Lemma run_ok fuel : 64 * (len + 6) * (len + 6) <= Z.of_nat fuel ->
    okr good (r <- start m ;; loop m text fuel r).
  Proof.
    intros Hf. unfold start.
    pose proof Hcheck as Hc. unfold check in Hc. dand. unfold start_state in H0.
    destruct (k_entry m 0) as [c|] eqn:Ec; [|discriminate]. cbn [option_map a_cs] in H0. dand.
    rewrite (entry_ok _ _ Ec). cbn [bind].
    set (r0 := mkRt 0 None None None (Some c) [] false false None 0 None false None false false [] [] []).
    apply existsb_exists in H0. destruct H0 as ([b rk] & Hin & Hle). cbn [fst] in Hle.
    match type of Hle with a_le ?a _ = _ => set (a0 := a) in * end.
    assert (Hr : rel (r_p r0) (r_ts r0) (init_step a0 false) r0).
    { pose proof len_pos. constructor; cbn; auto; try discriminate; try lia.
      intros d x [= <- <-]. split; intros; lia. }
    destruct (a_le_ok _ _ _ _ _ Hle Hr I) as (Hr' & Hpk & Ecs).
    assert (Hg : good r0).
    { constructor; cbn; auto; intros; discriminate. }
    assert (Hi : inv b rk r0).
    { constructor; auto. exists c. auto. }
    eapply loop_ok; [exact Hi|].
    pose proof (inv_rk _ _ _ Hi) as Hrk. pose proof len_pos as Hlp.
    assert (Hts : phase_of m b <> Inside).
    { intros E. destruct (inv_ts _ _ _ Hi E) as (u & Hu & _). cbn in Hu. discriminate. }
    unfold mu. destruct (phase_of m b); [| |].
    - cbn [r_p r0]. unfold mK, mJ, mA. nia.
    - congruence.
    - cbn [r_p r0]. unfold weight in Hrk. unfold mK, mJ, mA. nia.
  Qed.

  Theorem parse_ok fuel : lines names may = true -> 64 * (len + 6) * (len + 6) <= Z.of_nat fuel ->
    okr (Forall span) (parse m text fuel).
  Proof.
    intros Hlk Hf. unfold parse. pose proof (run_ok _ Hf) as H. destruct (start m) as [r| |]; cbn [bind] in *; auto.
    eapply okr_bind; [exact H|].
    intros r1 Hr1. eapply okr_bind; [apply last_ok; auto|]. intros r2 Hr2. cbn. apply Forall_rev. apply g_out. auto.
  Qed.

  Theorem parse_entities_ok fuel : 64 * (len + 6) * (len + 6) <= Z.of_nat fuel ->
    okr (Forall span) (parse_entities m text fuel).
  Proof.
    intros Hf. unfold parse_entities. pose proof (run_ok _ Hf) as H. destruct (start m) as [r| |]; cbn [bind] in *; auto.
    eapply okr_bind; [exact H|]. intros r1 Hr1. cbn. apply Forall_rev. apply g_out. auto.
  Qed.
End Sound.

(** More fuel does not change the result. *)
Lemma loop_more m text fuel : forall r k, loop m text fuel r <> OutOfFuel -> loop m text (fuel + k) r = loop m text fuel r.
Proof.
  induction fuel; intros r k H; cbn [loop Nat.add] in *; [congruence|].
  destruct (step m text r) as [[r'|r']| |]; cbn [bind] in *; auto.
Qed.

Lemma parse_more m text fuel k : parse m text fuel <> OutOfFuel -> parse m text (fuel + k) = parse m text fuel.
Proof.
  unfold parse. destruct (start m) as [r| |]; cbn [bind]; auto. intros H.
  rewrite loop_more; auto. intros E. rewrite E in H. cbn in H. congruence.
Qed.
