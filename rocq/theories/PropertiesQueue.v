(** Property C24: queued callbacks. *)
From Coq Require Import ZArith String List Bool Lia.
From Verif Require Import Base ParsedModel RagelSyntax RagelBuild RagelRun ParserTable ScanCheck ScanCert PropertiesScan QueueSpec.
Import ListNotations.
Open Scope string_scope.
Open Scope Z_scope.
Open Scope list_scope.

Section Run.
  Variable m : machine.
  Variable text : list Z.

  (** A move of the scanner: an action, or a change that leaves the variables of the
      queue and the flags of the line alone. *)
  Inductive move := Act (s : stmt) | Other (r' : rt).
  Definition same_queue (r r' : rt) : Prop :=
    r_inq r' = r_inq r /\ r_queue r' = r_queue r /\ r_out r' = r_out r /\
    r_last_ls r' = r_last_ls r /\ r_last_lcc r' = r_last_lcc r /\ r_last_wlc r' = r_last_wlc r /\
    r_ls r' = r_ls r /\ r_lcc r' = r_lcc r /\ r_wlc r' = r_wlc r.

  Definition lang_of (l : string) (r : rt) : string := match r_seen r with Some s => s | None => l end.

  (** The report about the bytes from [s] to [e], if both are pointers into the buffer. *)
  Definition report (l : string) (r : rt) (s e : ptr) : list happening :=
    match s, e with
    | Some a, Some b => [Made (mkEvent l (kind r) a b)]
    | _, _ => []
    end.
  Definition inl_happens (l : string) (r : rt) : list happening :=
    if ptr_gt (Some (r_p r)) (r_ls r) then report l r (r_ls r) (Some (r_p r)) else [].
  Definition nl_happens (l : string) (r : rt) : list happening :=
    let r := dequeue r in
    Drop :: if ptr_gt (r_te r) (r_ls r) then
              report l r (if r_lcc r || r_wlc r then r_ls r else r_ts r) (r_te r)
            else [].
  Definition macro_happens (mc : macro) (r : rt) : list happening :=
    match mc with
    | Mls | Mcode | Mcomment => [Drop]
    | Minl l => inl_happens l r
    | Membinl l => inl_happens (lang_of l r) r
    | Mnl l => nl_happens l r
    | Membnl l => nl_happens (lang_of l r) r
    | Mblank l =>
      match blank_entry (S (length text)) text (r_p r + 1) with
      | Ok (Some q) => nl_happens l (set_te (Some (q + 1)) (set_p q r))
      | _ => []
      end
    end.
  Fixpoint switch_happens (l : list (Z * macro)) (r : rt) : list happening :=
    match l with
    | [] => []
    | (e, mc) :: l => if r_ent r =? e then macro_happens mc r else switch_happens l r
    end.
  Definition happens (s : stmt) (r : rt) : list happening :=
    match s with
    | Switch l => switch_happens l r
    | Aenqueue => [Begin]
    | Acommit => [Commit]
    | _ => []
    end.

  (** Runs: the moves and what happens in them. *)
  Inductive runs : rt -> list move -> list happening -> rt -> Prop :=
  | R_nil r : runs r [] [] r
  | R_act r s r1 j l h r2 : counts_stmt s = true -> exec_stmt m text s r = Ok (r1, j) -> runs r1 l h r2 ->
      runs r (Act s :: l) (happens s r ++ h) r2
  | R_other r r1 l h r2 : same_queue r r1 -> runs r1 l h r2 -> runs r (Other r1 :: l) h r2.

  (** What one action delivers, given what happens after it. *)
  Definition effect (r : rt) (h : list happening) (r' : rt) : Prop :=
    forall k, rev (r_out r) ++ (if r_inq r && committed (h ++ k) then rev (r_queue r) else []) ++ delivered (r_inq r) (h ++ k)
      = rev (r_out r') ++ (if r_inq r' && committed k then rev (r_queue r') else []) ++ delivered (r_inq r') k.

  Lemma effect_dequeue r : effect r [Drop] (dequeue r).
  Proof.
    intros k. unfold dequeue. destruct (r_inq r) eqn:E; cbn; rewrite ?E; reflexivity.
  Qed.

  Lemma effect_trans r h r1 h2 r2 : effect r h r1 -> effect r1 h2 r2 -> effect r (h ++ h2) r2.
  Proof. intros H1 H2 k. rewrite <- app_assoc, (H1 (h2 ++ k)), (H2 k). reflexivity. Qed.

  Lemma effect_same r r' : r_inq r' = r_inq r -> r_queue r' = r_queue r -> r_out r' = r_out r -> effect r [] r'.
  Proof. intros H1 H2 H3 k. cbn. rewrite H1, H2, H3. reflexivity. Qed.

  Lemma effect_callback l r s e r' kd : r_inq r = false -> callback l kd s e r = Ok r' -> kd = kind r ->
    effect r (report l r s e) r' /\ r_inq r' = false.
  Proof.
    intros Hq H ->. unfold callback in H. destruct s as [a|]; [|discriminate]. destruct e as [b|]; [|discriminate].
    cbn in H. injection H as <-. split; auto. intros k. cbn. rewrite Hq. cbn. rewrite <- app_assoc. reflexivity.
  Qed.

  Lemma effect_inl l r r' : std_internal_newline l r = Ok r' -> effect r (inl_happens l r) r'.
  Proof.
    unfold std_internal_newline, inl_happens. destruct (ptr_gt _ _).
    - destruct (r_inq r) eqn:Hq; intros H.
      + unfold enqueue in H. destruct (r_ls r) as [a|] eqn:El; [|discriminate]. cbn in H. injection H as <-.
        intros k. cbn. rewrite Hq. cbn [andb]. destruct (committed k); cbn; [rewrite <- !app_assoc|]; reflexivity.
      + destruct (callback l (kind r) (r_ls r) (Some (r_p r)) r) as [r1| |] eqn:E; cbn in H; try discriminate. injection H as <-.
        destruct (effect_callback _ _ _ _ _ _ Hq E eq_refl) as [H1 H2]. intros k. rewrite (H1 k). reflexivity.
    - cbn. intros H. injection H as <-. apply effect_same; auto.
  Qed.

  Lemma dequeue_inq r : r_inq (dequeue r) = false.
  Proof. unfold dequeue. destruct (r_inq r) eqn:E; auto. Qed.

  Lemma effect_nl l r r' : std_newline l r = Ok r' -> effect r (nl_happens l r) r'.
  Proof.
    unfold std_newline, nl_happens. cbv zeta. pose proof (dequeue_inq r) as Hq. pose proof (effect_dequeue r) as Hd.
    set (r0 := dequeue r) in *. clearbody r0. intros H.
    change (Drop :: ?x) with ([Drop] ++ x). 
    apply (effect_trans r [Drop] r0); auto. destruct (ptr_gt _ _).
    - destruct (callback _ _ _ _ r0) as [r1| |] eqn:E; cbn in H; try discriminate. injection H as <-.
      destruct (effect_callback _ _ _ _ _ _ Hq E eq_refl) as [H1 H2]. intros k. rewrite (H1 k). reflexivity.
    - cbn in H. injection H as <-. apply effect_same; auto.
  Qed.

  Lemma effect_emb f l r r' h : (forall l r r', f l r = Ok r' -> effect r (h l r) r') -> emb f l r = Ok r' ->
    effect r (h (lang_of l r) r) r'.
  Proof.
    intros Hf. unfold emb. fold (lang_of l r). destruct (f (lang_of l r) r) as [r1| |] eqn:E; cbn; try discriminate.
    intros H. injection H as <-. intros k. rewrite (Hf _ _ _ E k). reflexivity.
  Qed.

  Lemma effect_macro mc r r' : exec_macro text mc r = Ok r' -> effect r (macro_happens mc r) r'.
  Proof.
    destruct mc; cbn [exec_macro macro_happens].
    - intros H. injection H as <-. intros k. rewrite (effect_dequeue r k). reflexivity.
    - intros H. injection H as <-. intros k. rewrite (effect_dequeue r k). reflexivity.
    - intros H. injection H as <-. intros k. rewrite (effect_dequeue r k). unfold do_comment.
      destruct (r_lcc (dequeue r)); reflexivity.
    - apply effect_inl.
    - apply effect_nl.
    - intros H. apply (effect_emb _ _ _ _ inl_happens effect_inl H).
    - intros H. apply (effect_emb _ _ _ _ nl_happens effect_nl H).
    - unfold check_blank_entry. destruct (blank_entry _ _ _) as [[q|]| |]; cbn [bind]; try discriminate.
      + intros H. apply effect_nl in H. intros k. rewrite <- (H k). reflexivity.
      + intros H. injection H as <-. apply effect_same; auto.
  Qed.

  Lemma effect_stmt s r r' j : counts_stmt s = true -> exec_stmt m text s r = Ok (r', j) -> effect r (happens s r) r'.
  Proof.
    destruct s; cbn [exec_stmt happens counts_stmt]; intros Hc H; try discriminate Hc.
    - injection H as <- <-. apply effect_same; auto.
    - destruct (switch text cases r) as [r1| |] eqn:E; cbn in H; try discriminate. injection H as <- <-.
      revert E. induction cases as [|[e mc] l IH]; cbn [switch switch_happens]; intros E.
      + injection E as <-. apply effect_same; auto.
      + destruct (r_ent r =? e); [apply effect_macro; auto|auto].
    - injection H as <- <-. apply effect_same; auto.
    - injection H as <- <-. unfold do_comment. destruct (r_lcc r); apply effect_same; auto.
    - injection H as <- <-. apply effect_same; auto.
    - injection H as <- <-. intros k. cbn. destruct (committed k); cbn; rewrite ?andb_false_r; reflexivity.
    - injection H as <- <-. intros k. destruct (r_inq r) eqn:E; cbn; rewrite ?E; cbn; [|reflexivity].
      rewrite rev_app_distr, <- app_assoc. reflexivity.
    - injection H as <- <-. destruct (r_lcc r || r_wlc r); apply effect_same; auto.
    - injection H as <- <-. apply effect_same; auto.
    - injection H as <- <-. apply effect_same; auto.
    - destruct (ckint _) as [x| |]; cbn in H; try discriminate. injection H as <- <-. apply effect_same; auto.
    - injection H as <- <-. apply effect_same; auto.
    - injection H as <- <-. apply effect_same; auto.
    - destruct (cint _) as [x| |]; cbn in H; try discriminate. injection H as <- <-. apply effect_same; auto.
    - destruct (RagelRun.entry m _) as [x| |]; cbn [bind] in H; try discriminate.
      destruct (Nat.ltb _ _); try discriminate. injection H as <- <-. apply effect_same; auto.
    - destruct (RagelRun.entry m _) as [x| |]; cbn [bind] in H; try discriminate. injection H as <- <-. apply effect_same; auto.
    - destruct (r_stack r); try discriminate. injection H as <- <-. apply effect_same; auto.
  Qed.

  (** Whatever sequence of actions is executed: the callbacks are those that the
      happenings call for, in the order in which they were made. *)
  Theorem C24_delivery :
    forall r mv h r', runs r mv h r' -> r_inq r = false -> rev (r_out r') = rev (r_out r) ++ delivered false h.
  Proof.
    intros r mv h r' H Hq.
    assert (G : effect r h r').
    { clear Hq. induction H.
      - apply effect_same; auto.
      - eapply effect_trans; [eapply effect_stmt; eauto|auto].
      - change h with ([] ++ h). eapply effect_trans; [|eassumption]. destruct H as (H1 & H2 & H3 & _). apply effect_same; auto. }
    specialize (G []). rewrite app_nil_r, Hq in G. cbn in G. rewrite G. rewrite andb_false_r. cbn. rewrite app_nil_r.
    destruct (r_inq r'); rewrite ?app_nil_r; reflexivity.
  Qed.

  (** ** Parsers make only such moves *)
  Lemma runs_app r l1 h1 r1 : runs r l1 h1 r1 -> forall l2 h2 r2, runs r1 l2 h2 r2 -> runs r (l1 ++ l2) (h1 ++ h2) r2.
  Proof.
    induction 1; intros l2 h2 r3 H'; cbn; auto.
    - rewrite <- app_assoc. econstructor; eauto.
    - econstructor; eauto.
  Qed.

  Definition does (r r' : rt) : Prop := exists mv h, runs r mv h r'.
  Lemma does_refl r : does r r.
  Proof. exists [], []. constructor. Qed.
  Lemma does_trans r r1 r2 : does r r1 -> does r1 r2 -> does r r2.
  Proof. intros (l & h & H) (l2 & h2 & H2). eexists _, _. eapply runs_app; eauto. Qed.
  Lemma does_other r r' : same_queue r r' -> does r r'.
  Proof. intros H. exists [Other r'], []. eapply R_other; eauto. constructor. Qed.
  Lemma does_set_then (r r1 r2 : rt) : same_queue r r1 -> does r1 r2 -> does r r2.
  Proof. intros H H2. eapply does_trans; [apply does_other|]; eauto. Qed.

  Ltac sq := repeat split; reflexivity.

  (** The machine counts lines. *)
  Hypothesis Hcount : counting m = true.

  Lemma counts_part d i a : In d (m_dfas m) -> nth_error (df_parts d) i = Some (Some a) -> forallb counts_stmt (a_body a) = true.
  Proof.
    intros Hd Hi. pose proof Hcount as Hc. unfold counting in Hc. rewrite forallb_forall in Hc. specialize (Hc _ Hd).
    apply andb_prop in Hc. destruct Hc as [H _]. rewrite forallb_forall in H.
    specialize (H _ (nth_error_In _ _ Hi)). auto.
  Qed.
  Lemma counts_state d k q : In d (m_dfas m) -> PM.find k (df_sts d) = Some q ->
    forallb counts_instr (q_eof q) = true /\
    forall b e, In b (q_row q) -> In e (branch_edges b) -> forallb counts_instr (e_ins e) = true.
  Proof.
    intros Hd Hk. pose proof Hcount as Hc. unfold counting in Hc. rewrite forallb_forall in Hc. specialize (Hc _ Hd).
    apply andb_prop in Hc. destruct Hc as [_ H]. rewrite forallb_forall in H.
    apply PM.elements_correct in Hk. specialize (H _ Hk). cbn in H. apply andb_prop in H. destruct H as [H1 H2].
    split; auto. intros b e Hb He. rewrite forallb_forall in H2. specialize (H2 _ Hb). rewrite forallb_forall in H2. auto.
  Qed.
  Lemma select_in b : forall r e, select text b r = Ok e -> In e (branch_edges b).
  Proof.
    induction b; cbn [select branch_edges]; intros r e0 H.
    - injection H as <-. left. auto.
    - destruct (eval_cond _ _ _) as [[]| |]; cbn in H; try discriminate; apply in_or_app; eauto.
  Qed.

  Lemma does_body l : forallb counts_stmt l = true -> forall r r' j, exec_body m text l r = Ok (r', j) -> does r r'.
  Proof.
    induction l as [|s l IH]; cbn [exec_body forallb]; intros Hc r r' j H.
    - injection H as <- <-. apply does_refl.
    - apply andb_prop in Hc. destruct Hc as [Hc Hl].
      destruct (exec_stmt m text s r) as [[r1 j1]| |] eqn:E; cbn in H; try discriminate.
      assert (does r r1) by (eexists _, _; eapply R_act; [exact Hc|exact E|constructor]).
      destruct j1; [injection H as <- <-; auto|]. eapply does_trans; eauto.
  Qed.

  Lemma does_part d i r r' j : In d (m_dfas m) -> exec_part m text d i r = Ok (r', j) -> does r r'.
  Proof.
    intros Hd. unfold exec_part.
    destruct (nth_error (df_parts d) i) as [[a|]|] eqn:Ei; [eapply does_body, counts_part; eauto| |discriminate].
    intros H. injection H as <- <-. apply does_refl.
  Qed.

  Lemma does_instr d i r r' j : In d (m_dfas m) -> counts_instr i = true -> exec_instr m text d i r = Ok (r', j) -> does r r'.
  Proof.
    destruct i; cbn [exec_instr counts_instr]; intros Hd Hc H.
    - eapply does_body; eauto.
    - injection H as <- <-. apply does_other. sq.
    - injection H as <- <-. apply does_other. sq.
    - eapply does_set_then; [|eapply does_part; eauto]. sq.
    - eapply does_set_then; [|eapply does_part; eauto]. sq.
    - destruct (cint _) as [x| |]; cbn [bind] in H; try discriminate. eapply does_set_then; [|eapply does_part; eauto]. sq.
    - destruct (r_act r); [|injection H as <- <-; apply does_other; sq].
      destruct (cint _) as [x| |]; cbn [bind] in H; try discriminate. eapply does_set_then; [|eapply does_part; eauto]. sq.
  Qed.

  Lemma does_instrs d l : In d (m_dfas m) -> forallb counts_instr l = true -> forall r r' j, exec_instrs m text d l r = Ok (r', j) -> does r r'.
  Proof.
    intros Hd. induction l as [|s l IH]; cbn [exec_instrs forallb]; intros Hc r r' j H.
    - injection H as <- <-. apply does_refl.
    - apply andb_prop in Hc. destruct Hc as [Hc Hl].
      destruct (exec_instr m text d s r) as [[r1 j1]| |] eqn:E; cbn in H; try discriminate.
      apply does_instr in E; auto. destruct j1; [injection H as <- <-; auto|]. eapply does_trans; eauto.
  Qed.

  Definition result (o : outcome) : rt := match o with Go r | Stop r => r end.
  Lemma does_again r o : again m r = Ok o -> does r (result o).
  Proof.
    unfold again. destruct (r_cs r) as [[i k]|].
    - destruct (dfa_of m i) as [d| |]; cbn [bind]; try discriminate. intros H. injection H as <-. cbn.
      destruct (is_scan_start d k); apply does_other; sq.
    - intros H. injection H as <-. apply does_refl.
  Qed.

  Lemma does_step r o : step m text r = Ok o -> does r (result o).
  Proof.
    unfold step. destruct (r_cs r) as [[i k]|]; [|intros H; injection H as <-; apply does_refl].
    destruct (dfa_of m i) as [d| |] eqn:Ed; cbn [bind]; try discriminate.
    destruct (state_of d k) as [q| |] eqn:Eq; cbn [bind]; try discriminate.
    assert (Hd : In d (m_dfas m)).
    { unfold dfa_of in Ed. destruct (nth_error (m_dfas m) i) eqn:En; [|discriminate]. injection Ed as <-. eapply nth_error_In; eauto. }
    assert (Hq : PM.find k (df_sts d) = Some q).
    { unfold state_of in Eq. destruct (PM.find k (df_sts d)); [|discriminate]. injection Eq as ->. auto. }
    destruct (counts_state _ _ _ Hd Hq) as [Hce Hcr]. clear Hq Eq Ed.
    destruct (r_p r =? _).
    - destruct (q_eof_to q) as [s|].
      + destruct (exec_instrs _ _ _ _ _) as [[r1 j]| |] eqn:E; cbn [bind]; try discriminate. intros H.
        eapply does_set_then; [|eapply does_trans; [eapply does_instrs; eauto|apply does_again; eauto]]. sq.
      + destruct (exec_instrs _ _ _ _ _) as [[r1 j]| |] eqn:E; cbn [bind]; try discriminate. apply does_instrs in E; auto.
        destruct j; intros H; [eapply does_trans; [eauto|apply does_again; auto]|]. injection H as <-. auto.
    - cbv zeta. set (r0 := if is_scan_start d k then _ else r).
      assert (S0 : same_queue r r0) by (unfold r0; destruct (is_scan_start d k); sq).
      clearbody r0. destruct (src _ _) as [c| |]; cbn [bind]; try discriminate.
      destruct (PM.find _ _) as [cl|]; cbn [bind]; try discriminate.
      destruct (nth_error (q_row q) cl) as [b|] eqn:Eb; cbn [bind]; try discriminate.
      destruct (select text b r0) as [e| |] eqn:Es; cbn [bind]; try discriminate.
      pose proof (Hcr _ _ (nth_error_In _ _ Eb) (select_in _ _ _ Es)) as Hci.
      destruct (exec_instrs _ _ _ _ _) as [[r1 j]| |] eqn:E; cbn [bind]; try discriminate. intros H.
      eapply does_set_then; [exact S0|]. eapply does_set_then; [|eapply does_trans; [eapply does_instrs; eauto|apply does_again; eauto]]. sq.
  Qed.

  Lemma does_loop fuel : forall r r', loop m text fuel r = Ok r' -> does r r'.
  Proof.
    induction fuel as [|fuel IH]; cbn [loop]; intros r r' H; [discriminate|].
    destruct (step m text r) as [o| |] eqn:E; cbn [bind] in H; try discriminate. apply does_step in E.
    destruct o as [r1|r1]; cbn in E; [eapply does_trans; eauto|]. injection H as <-. auto.
  Qed.

  (** The reports of a parser, for any machine: those delivered in its run, and the last
      line. *)
  Theorem C24_parse_delivers :
    forall fuel es, parse m text fuel = Ok es -> exists r0 mv h r,
      start m = Ok r0 /\ runs r0 mv h r /\
      es = delivered false h ++
           (if r_wlc r || r_lcc r then
              match r_ls r with Some s => [mkEvent (m_lang m) (kind r) s (Z.of_nat (length text))] | None => [] end
            else []).
  Proof.
    intros fuel es H. unfold parse in H. destruct (start m) as [r0| |] eqn:E0; cbn [bind] in H; try discriminate.
    destruct (loop m text fuel r0) as [r| |] eqn:El; cbn [bind] in H; try discriminate.
    destruct (does_loop _ _ _ El) as (mv & h & Hr). exists r0, mv, h, r. split; auto. split; auto.
    assert (Hs : r_inq r0 = false /\ r_out r0 = []).
    { unfold start in E0. destruct (RagelRun.entry m 0) as [c| |]; cbn [bind] in E0; try discriminate. injection E0 as <-. auto. }
    destruct Hs as [Hq Ho]. pose proof (C24_delivery _ _ _ _ Hr Hq) as D. rewrite Ho in D. cbn in D. rewrite <- D.
    unfold process_last_line in H. destruct (r_wlc r || r_lcc r).
    - unfold callback in H. destruct (r_ls r) as [s|]; cbn in H; [|discriminate]. injection H as <-. reflexivity.
    - cbn in H. injection H as <-. rewrite app_nil_r. reflexivity.
  Qed.

  (** Between the start of a queue and its end nothing that happens in the line is lost:
      when the token is abandoned, the variables of the line are back to what they were. *)
  Definition in_token (mv : move) : Prop :=
    match mv with
    | Other _ => True
    | Act (Switch l) => Forall (fun em => match snd em with Minl _ | Membinl _ => True | _ => False end) l
    | Act Aenqueue | Act Acommit | Act (Report _ _) => False
    | Act _ => True
    end.
  Definition saved (r : rt) : Prop := r_inq r = true.
  Definition same_saved (r r' : rt) : Prop :=
    r_inq r' = r_inq r /\ r_last_ls r' = r_last_ls r /\ r_last_lcc r' = r_last_lcc r /\ r_last_wlc r' = r_last_wlc r.

  Lemma saved_inl l r r' : std_internal_newline l r = Ok r' -> same_saved r r'.
  Proof.
    unfold std_internal_newline. destruct (ptr_gt _ _); [|intros H; injection H as <-; sq].
    destruct (r_inq r) eqn:Eq; unfold enqueue, callback; destruct (r_ls r); cbn; try discriminate;
      intros H; injection H as <-; repeat split; auto.
  Qed.

  Lemma saved_trans r r1 r2 : same_saved r r1 -> same_saved r1 r2 -> same_saved r r2.
  Proof. unfold same_saved. intuition congruence. Qed.

  Lemma saved_stmt s r r' j : in_token (Act s) -> exec_stmt m text s r = Ok (r', j) -> same_saved r r'.
  Proof.
    destruct s; cbn [exec_stmt in_token]; intros Hi H; try contradiction;
      try (injection H as <- <-; solve [sq]).
    - destruct (switch text cases r) as [r1| |] eqn:E; cbn in H; try discriminate. injection H as <- <-.
      revert E. induction Hi as [|[e mc] l Hm Hl IH]; cbn [switch]; intros E; [injection E as <-; sq|].
      destruct (r_ent r =? e); auto. cbn in Hm. destruct mc; try contradiction; cbn [exec_macro] in E.
      + eapply saved_inl; eauto.
      + unfold emb in E. destruct (std_internal_newline _ r) as [r2| |] eqn:E2; cbn in E; try discriminate. injection E as <-.
        apply saved_inl in E2. eapply saved_trans; [exact E2|]. sq.
    - injection H as <- <-. unfold do_comment. destruct (r_lcc r); sq.
    - injection H as <- <-. destruct (r_lcc r || r_wlc r); sq.
    - destruct (ckint _) as [x| |]; cbn in H; try discriminate. injection H as <- <-. sq.
    - destruct (cint _) as [x| |]; cbn in H; try discriminate. injection H as <- <-. sq.
    - destruct (RagelRun.entry m _) as [x| |]; cbn [bind] in H; try discriminate.
      destruct (Nat.ltb _ _); try discriminate. injection H as <- <-. sq.
    - destruct (RagelRun.entry m _) as [x| |]; cbn [bind] in H; try discriminate. injection H as <- <-. sq.
    - destruct (r_stack r); try discriminate. injection H as <- <-. sq.
  Qed.

  Theorem C24_abandon_restores :
    forall r r1 j mv h r2, exec_stmt m text Aenqueue r = Ok (r1, j) -> runs r1 mv h r2 -> Forall in_token mv ->
    r_ls (dequeue r2) = r_ls r /\ r_lcc (dequeue r2) = r_lcc r /\ r_wlc (dequeue r2) = r_wlc r.
  Proof.
    intros r r1 j mv h r2 E Hr Hi. cbn in E. injection E as <- <-.
    assert (S : same_saved (set_last (r_ls r) (r_lcc r) (r_wlc r) (set_queue [] (set_inq true r))) r2).
    { induction Hr; [sq| |].
      - inversion Hi; subst. eapply saved_trans; [eapply saved_stmt; eauto|auto].
      - inversion Hi; subst. eapply saved_trans; [|eauto]. destruct H as (Q1 & Q2 & Q3 & Q4 & Q5 & Q6 & _). repeat split; auto. }
    destruct S as (S1 & S2 & S3 & S4). cbn in *. unfold dequeue. rewrite S1. cbn. auto.
  Qed.
End Run.

(** The machines of all languages for counting lines are such machines. *)
Theorem C24_parsers :
  forall en m, In en entries -> compile (en_parser en) = Some m -> counting m = true.
Proof.
  intros en m Hin Hm. destruct (all_certified _ Hin) as (tb & Hc). unfold certified_by in Hc. rewrite Hm in Hc.
  do 2 (apply andb_prop in Hc as [Hc _]). apply andb_prop in Hc. apply Hc.
Qed.
Print Assumptions C24_parsers.
Print Assumptions C24_delivery.
Print Assumptions C24_parse_delivers.
Print Assumptions C24_abandon_restores.

(** ** Cases *)
(** A queue that is dropped, one that is committed. *)
Example C24_case :
  let a := mkEvent "c" "lcode" 0 4 in let b := mkEvent "c" "lcomment" 4 7 in let c := mkEvent "c" "lblank" 7 8 in
  delivered false [Made a; Begin; Made b; Drop; Made c] = [a; c] /\
  delivered false [Made a; Begin; Made b; Commit; Made c] = [a; b; c] /\
  delivered false [Begin; Made a; Made b] = [].
Proof. vm_compute. auto. Qed.

(** Shell strings are queued: closed, the two lines of the string come as they were
    made; not closed, the same bytes are counted again as plain code, once. *)
Definition dq : string := String (Ascii.ascii_of_nat 34) "".
Example C24_case_shell :
  ohcount_parse (Some "shell") (bytes ("x=" ++ dq ++ "a" ++ nl ++ "b" ++ dq ++ nl)) 400 =
    Some (Ok [mkEvent "shell" "lcode" 0 5; mkEvent "shell" "lcode" 5 8]) /\
  ohcount_parse (Some "shell") (bytes ("x=" ++ dq ++ "a" ++ nl ++ "b" ++ nl)) 400 =
    Some (Ok [mkEvent "shell" "lcode" 0 5; mkEvent "shell" "lcode" 5 7]).
Proof. vm_compute. auto. Qed.
