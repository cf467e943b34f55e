(** What acceptance by [entity_check] means. *)
From Coq Require Import ZArith String List Bool Lia.
From Verif Require Import Base ParsedModel ParsedSpec RagelSyntax RagelBuild RagelRun TailCheck TailProofs EntitySpec EntityCheck.
Import ListNotations.
Open Scope string_scope.
Open Scope Z_scope.
Open Scope list_scope.

Section Sound.
  Variable m : machine.
  Variable tile spaces : bool.
  Variable text : list Z.
  Let len := Z.of_nat (length text).
  Let kinds := class_kinds m.

  (** The reports (last first) account for the bytes before [q]. *)
  Record shown (out : list event) (q : Z) : Prop := {
    s_pos : 0 <= q;
    s_space : spaces = true -> Forall (space_report text) out;
    s_in : Forall (fun e => 0 <= e_start e < e_end e /\ e_end e <= q) out;
    s_order : ForallOrdPairs (fun a b => e_end b <= e_start a) out;
    s_all : forall i, 0 <= i < q -> tile = true \/ space_at text i -> exists e, In e out /\ within e i }.

  (** The bytes from [lo] to [hi]. *)
  Definition span_is (c : cls) (lo hi : Z) : Prop :=
    lo < hi /\
    match c with
    | Spaces => forall i, lo <= i < hi -> space_at text i
    | Solid => forall i, lo <= i < hi -> ~ space_at text i
    | Starts => ~ space_at text lo
    | Other => True
    end.

  Record fits (a : est) (r : rt) : Prop := {
    f_cs : r_cs r = x_cs a;
    f_stack : r_stack r = x_stack a;
    f_act : r_act r = x_act a;
    f_ent : r_ent r = x_ent a;
    f_out : match x_mode a with
            | Head => shown (r_out r) (r_p r)
            | Token => exists t, r_ts r = Some t /\ shown (r_out r) t
            | Done => shown (r_out r) (r_p r + 1)
            end;
    f_before : forall c, x_before a = Some c -> exists t, r_ts r = Some t /\ span_is c t (r_p r);
    f_tok : forall c, x_tok a = Some c -> exists t, r_ts r = Some t /\ span_is c t (r_p r + 1);
    f_next : x_next a = true -> ~ space_at text (r_p r);
    f_te : forall c b, x_te a = Some (c, b) ->
           exists t e, r_ts r = Some t /\ r_te r = Some e /\ span_is c t e /\ (b = true -> ~ space_at text e);
    f_at : x_at a = true -> exists e, r_te r = Some e /\ e = r_p r + 1;
    f_end : x_end a = true -> r_p r = len }.

  Ltac crush :=
    repeat match goal with H : fits _ _ |- _ => destruct H end;
    constructor; cbn in *; try solve [auto | intros; try discriminate; eauto].

  Lemma fits_ent a r e : fits a r -> fits (w_ent e a) (set_ent e r).
  Proof. intros H. crush. Qed.
  Lemma fits_cs a r c : fits a r -> fits (w_cs c a) (set_cs c r).
  Proof. intros H. crush. Qed.
  Lemma fits_stack a r c : fits a r -> fits (w_stack c a) (set_stack c r).
  Proof. intros H. crush. Qed.
  Lemma fits_act a r c : fits a r -> fits (w_act c a) (set_actid c r).
  Proof. intros H. crush. Qed.
  Lemma fits_vars a r vs : fits a r -> fits a (set_vars vs r).
  Proof. intros H. crush. Qed.
  Lemma fits_seen a r s : fits a r -> fits a (set_seen s r).
  Proof. intros H. crush. Qed.
  Lemma fits_line a r w c s : fits a r -> fits a (set_line w c s r).
  Proof. intros H. crush. Qed.
  Lemma fits_hold a r : fits a r -> x_mode a = Token -> fits (w_p (x_before a) false a) (set_p (r_p r - 1) r).
  Proof.
    intros H E. crush.
    - rewrite E in *. auto.
    - intros c Hc. destruct (f_before0 _ Hc) as (t & Ht & Hs). exists t. split; auto.
      replace (r_p r - 1 + 1) with (r_p r) by lia. auto.
  Qed.
  Lemma fits_set_te a r c : fits a r -> x_tok a = Some c ->
    fits (w_te (Some (c, false)) true a) (set_te (Some (r_p r + 1)) r).
  Proof.
    intros H E. crush. intros c' b [= <- <-]. destruct (f_tok0 _ E) as (t & Ht & Hs).
    exists t, (r_p r + 1). repeat split; auto; try (apply Hs). discriminate.
  Qed.
  Lemma fits_next a r c : fits a r -> x_mode a = Token -> x_before a = Some c ->
    fits (w_p (Some c) true (w_te (Some (c, x_next a)) false a)) (set_p (r_p r - 1) (set_te (Some (r_p r)) r)).
  Proof.
    intros H E Eb. crush.
    - rewrite E in *. auto.
    - intros c' [= <-]. destruct (f_before0 _ Eb) as (t & Ht & Hs). exists t. split; auto.
      replace (r_p r - 1 + 1) with (r_p r) by lia. auto.
    - intros c' b [= <- <-]. destruct (f_before0 _ Eb) as (t & Ht & Hs). exists t, (r_p r). auto.
    - intros _. eexists. split; [reflexivity|lia].
  Qed.
  Lemma fits_lag a r c b x : fits a r -> x_mode a = Token -> x_te a = Some (c, b) -> r_te r = Some x ->
    fits (w_p (Some c) true a) (set_p (x - 1) r).
  Proof.
    intros H E Et Hx. crush.
    - rewrite E in *. auto.
    - intros c' [= <-]. destruct (f_te0 _ _ Et) as (t & e & Ht & He & Hs & _). exists t. split; auto.
      assert (e = x) by congruence. subst. replace (x - 1 + 1) with x by lia. auto.
    - intros _. eexists. split; [exact Hx|lia].
  Qed.

  (** ** The report *)
  Lemma shown_more out t e k l c b : shown out t -> span_is c t e -> (b = true -> ~ space_at text e) ->
    (spaces = true ->
     if String.eqb k "space" then c = Spaces /\ b = true else c = Solid \/ c = Starts) ->
    shown (mkEvent l k t e :: out) e.
  Proof.
    intros [Hp Hsp Hin Hord Hall] (Hlt & Hc) Hb Hk. constructor.
    - lia.
    - intros Es. specialize (Hk Es). constructor; auto. unfold space_report. cbn [e_entity].
      destruct (String.eqb k "space").
      + destruct Hk as (-> & ->). split; [|cbn; auto]. intros i Hi. apply Hc. exact Hi.
      + cbn [e_start]. destruct Hk as [->| ->]; auto. apply Hc. lia.
    - constructor; [cbn; lia|]. eapply Forall_impl; [|exact Hin]. cbn. intros; lia.
    - constructor; auto. eapply Forall_impl; [|exact Hin]. cbn. intros; lia.
    - intros i Hi Hw. destruct (Z.lt_ge_cases i t) as [Hlt'|Hge].
      + destruct (Hall i ltac:(lia) Hw) as (e0 & He0 & Hw0). exists e0. split; [right; auto|auto].
      + eexists. split; [left; reflexivity|]. unfold within. cbn. lia.
  Qed.
  Lemma shown_solid out t e : tile = false -> shown out t -> span_is Solid t e -> shown out e.
  Proof.
    intros Et [Hp Hsp Hin Hord Hall] (Hlt & Hc). constructor; auto.
    - lia.
    - eapply Forall_impl; [|exact Hin]. cbn. intros; lia.
    - intros i Hi Hw. destruct (Z.lt_ge_cases i t) as [Hlt'|Hge]; [apply Hall; auto; lia|].
      exfalso. destruct Hw as [Hw|Hw]; [congruence|]. revert Hw. apply Hc. lia.
  Qed.

  Lemma report_fits names a b r l : fits a r -> x_report spaces names a = Some b ->
    fine (fits b) (x <- exec_stmt m text (Report l names) r ;; Ok (fst x)).
  Proof.
    unfold x_report. intros H Hk. cbn [exec_stmt].
    destruct (x_mode a) eqn:Em; try discriminate. destruct (x_te a) as [[c bb]|] eqn:Et; try discriminate.
    destruct (x_at a) eqn:Ea; try discriminate. rewrite (f_ent _ _ H). destruct (x_ent a <? 0); [discriminate|].
    destruct (nth_error names (Z.to_nat (x_ent a))) as [k|]; [|discriminate].
    destruct (negb spaces || _) eqn:Ek; [|discriminate]. injection Hk as <-.
    destruct (f_te _ _ H _ _ Et) as (t & e & Ht & He & Hs & Hb).
    destruct (f_at _ _ H Ea) as (e' & He' & Hp'). assert (Hp : e = r_p r + 1) by congruence. clear e' He' Hp'.
    pose proof (f_out _ _ H) as Ho. rewrite Em in Ho. destruct Ho as (t' & Ht' & Ho). assert (t' = t) by congruence. subst t'.
    unfold callback. rewrite Ht, He. cbn [cint bind]. cbn [fst bind fine].
    destruct H. constructor; cbn in *; auto.
    rewrite <- Hp. eapply shown_more; eauto. intros Es. rewrite Es in Ek. cbn [negb orb] in Ek.
    destruct (String.eqb k "space").
    - destruct c; try discriminate. auto.
    - destruct c; try discriminate; auto.
  Qed.

  (** ** Statements *)
  Definition is_next (o : est * bool) (x : rt * bool) : Prop := snd o = snd x /\ fits (fst o) (fst x).

  Lemma next_ok b r j : fits b r -> is_next (b, j) (r, j).
  Proof. split; auto. Qed.

  Lemma stmt_fits s a r o : fits a r -> x_stmt m spaces s a = Some o -> fine (is_next o) (exec_stmt m text s r).
  Proof.
    intros H Hk. destruct s; cbn [x_stmt] in Hk; try discriminate.
    - injection Hk as <-. cbn. apply next_ok, fits_ent; auto.
    - injection Hk as <-. cbn. apply next_ok. apply fits_line; auto.
    - injection Hk as <-. cbn. apply next_ok. unfold do_comment. destruct (r_lcc r); cbn; auto. apply fits_line; auto.
    - injection Hk as <-. cbn. apply next_ok. apply fits_line; auto.
    - injection Hk as <-. cbn. apply next_ok. destruct (_ || _); auto using fits_seen.
    - injection Hk as <-. cbn. apply next_ok. apply (fits_line a (set_seen (Some lang) r)); auto using fits_seen.
    - destruct (x_report _ _ _) as [b|] eqn:E; [|discriminate]. injection Hk as <-.
      pose proof (report_fits _ _ _ _ lang H E) as P.
      assert (J : fine (fun x => snd x = false) (exec_stmt m text (Report lang names) r)).
      { cbn [exec_stmt]. destruct (r_ent r <? 0); [exact I|]. destruct (nth_error _ _); [|exact I].
        destruct (callback _ _ _ _ _); cbn; auto. }
      destruct (exec_stmt _ _ _ _) as [x|u|]; cbn in *; auto. split; auto.
    - injection Hk as <-. cbn. apply next_ok, fits_vars; auto.
    - injection Hk as <-. cbn [exec_stmt]. destruct (ckint _); cbn; auto. apply next_ok, fits_vars; auto.
    - injection Hk as <-. cbn. apply next_ok, fits_vars; auto.
    - destruct (x_mode a) eqn:E; try discriminate. injection Hk as <-. cbn. apply next_ok, fits_hold; auto.
    - destruct (h_entry m _) as [c|] eqn:E; [|discriminate]. injection Hk as <-. cbn [exec_stmt].
      rewrite (entry_same _ _ _ E). cbn [bind]. destruct (Nat.ltb _ _); cbn; auto. apply next_ok. cbn.
      rewrite (f_cs _ _ H), (f_stack _ _ H). apply fits_cs, fits_stack; auto.
    - destruct (h_entry m _) as [c|] eqn:E; [|discriminate]. injection Hk as <-. cbn [exec_stmt].
      rewrite (entry_same _ _ _ E). cbn. apply next_ok, fits_cs; auto.
    - cbn [exec_stmt]. rewrite (f_stack _ _ H). destruct (x_stack a) as [|c s] eqn:E; [discriminate|]. injection Hk as <-.
      cbn. apply next_ok. apply fits_cs, fits_stack; auto.
  Qed.

  Lemma body_fits l : forall a r o, fits a r -> x_body m spaces l a = Some o -> fine (is_next o) (exec_body m text l r).
  Proof.
    induction l as [|s l IH]; intros a r o H Hk; cbn [x_body exec_body] in *.
    - injection Hk as <-. cbn. split; auto.
    - destruct (x_stmt m spaces s a) as [[b j]|] eqn:E; [|discriminate].
      eapply fine_bind; [eapply stmt_fits; eauto|]. intros [r' j'] [Hj Hf]. cbn [fst snd] in *. subst j'.
      destruct j; [injection Hk as <-; apply next_ok; auto|eauto].
  Qed.

  Lemma part_fits d i a r o : fits a r -> x_part m spaces d i a = Some o -> fine (is_next o) (exec_part m text d i r).
  Proof.
    unfold x_part, exec_part. intros H Hk. destruct (nth_error _ _) as [[x|]|]; try discriminate.
    - eapply body_fits; eauto.
    - injection Hk as <-. cbn. split; auto.
  Qed.

  Lemma instr_fits d i a r o : fits a r -> x_instr m spaces d i a = Some o -> fine (is_next o) (exec_instr m text d i r).
  Proof.
    intros H Hk. unfold x_instr in Hk. destruct (x_mode a) eqn:Em, i; try discriminate; cbn [exec_instr].
    - eapply body_fits; eauto.
    - destruct (x_tok a) as [c|] eqn:E; [|discriminate]. injection Hk as <-. cbn. apply next_ok, fits_set_te; auto.
    - injection Hk as <-. cbn. apply next_ok, fits_act; auto.
    - destruct (x_tok a) as [c|] eqn:E; [|discriminate]. eapply part_fits; [|eauto]. apply fits_set_te; auto.
    - destruct (x_before a) as [c|] eqn:E; [|discriminate]. eapply part_fits; [|eauto]. apply fits_next; auto.
    - destruct (x_te a) as [[c b]|] eqn:E; [|discriminate].
      destruct (r_te r) as [x|] eqn:Ex; cbn [cint bind fine]; auto.
      eapply part_fits; [|eauto]. eapply fits_lag; eauto.
    - rewrite (f_act _ _ H). destruct (x_act a) as [i|]; [|discriminate].
      destruct (x_te a) as [[c b]|] eqn:E; [|discriminate].
      destruct (r_te r) as [x|] eqn:Ex; cbn [cint bind fine]; auto.
      eapply part_fits; [|eauto]. eapply fits_lag; eauto.
    - eapply body_fits; eauto.
  Qed.

  Lemma instrs_fits d l : forall a r o, fits a r -> x_instrs m spaces d l a = Some o -> fine (is_next o) (exec_instrs m text d l r).
  Proof.
    induction l as [|s l IH]; intros a r o H Hk; cbn [x_instrs exec_instrs] in *.
    - injection Hk as <-. cbn. split; auto.
    - destruct (x_instr m spaces d s a) as [[b j]|] eqn:E; [|discriminate].
      eapply fine_bind; [eapply instr_fits; eauto|]. intros [r' j'] [Hj Hf]. cbn [fst snd] in *. subst j'.
      destruct j; [injection Hk as <-; apply next_ok; auto|eauto].
  Qed.

  (** ** Steps *)
  Lemma again_fits a b r : fits a r -> x_again m tile a = Some b -> exists r', again m r = Ok (Go r') /\ fits b r'.
  Proof.
    unfold x_again, again. intros H. rewrite (f_cs _ _ H). destruct (x_cs a) as [[i k]|] eqn:Ec; [|discriminate].
    unfold dfa_of. destruct (nth_error _ _) as [d|]; [|discriminate]. cbn [bind].
    destruct (is_scan_start d k).
    - intros Hk. eexists. split; [reflexivity|].
      destruct (x_mode a) eqn:Em; [discriminate| |].
      + destruct (x_tok a) as [[]|] eqn:Et; try discriminate. destruct tile eqn:Etile; [discriminate|].
        injection Hk as <-. destruct H. rewrite Em in *. constructor; cbn in *; try solve [auto|discriminate|congruence].
        destruct f_out0 as (t & Ht & Ho). destruct (f_tok0 _ Et) as (t' & Ht' & Hs).
        assert (t' = t) by congruence. subst t'. eapply shown_solid; eauto.
      + injection Hk as <-. destruct H. rewrite Em in *. constructor; cbn in *; try solve [auto|discriminate|congruence].
    - destruct (x_mode a) eqn:Em; try discriminate. destruct (x_tok a) as [c|] eqn:Et; [|discriminate].
      intros [= <-]. eexists. split; [reflexivity|].
      destruct H. rewrite Em in *. constructor; cbn in *; try solve [auto|discriminate|congruence].
      intros c' [= <-]. auto.
  Qed.

  Lemma cls_same_eq a b : cls_same a b = true -> a = b.
  Proof. destruct a, b; cbn; try discriminate; auto. Qed.
  Lemma ocls_same_eq a b : ocls_same a b = true -> a = b.
  Proof. destruct a, b; cbn; try discriminate; auto. intros H. apply cls_same_eq in H. congruence. Qed.
  Lemma mode_same_eq a b : mode_same a b = true -> a = b.
  Proof. destruct a, b; cbn; try discriminate; auto. Qed.

  Lemma same_eq a b : x_same a b = true -> a = b.
  Proof.
    unfold x_same. intros H. destruct a as [a1 a2 a3 a4 a5 a6 a7 a8 a9 a10 a11], b as [b1 b2 b3 b4 b5 b6 b7 b8 b9 b10 b11]. cbn in H.
    repeat match goal with H : _ && _ = true |- _ => apply andb_prop in H; destruct H end.
    assert (a9 = b9).
    { destruct a9 as [[c x]|], b9 as [[c' x']|]; try discriminate; auto.
      match goal with H : _ && _ = true |- _ => apply andb_prop in H; destruct H as [A B] end.
      apply cls_same_eq in A. apply eqb_prop in B. congruence. }
    repeat match goal with
           | H : oloc_same _ _ = true |- _ => apply oloc_same_eq in H
           | H : stack_same _ _ = true |- _ => apply stack_same_eq in H
           | H : nat_same _ _ = true |- _ => apply nat_same_eq in H
           | H : mode_same _ _ = true |- _ => apply mode_same_eq in H
           | H : ocls_same _ _ = true |- _ => apply ocls_same_eq in H
           | H : Bool.eqb _ _ = true |- _ => apply eqb_prop in H
           | H : (_ =? _) = true |- _ => apply Z.eqb_eq in H
           end.
    subst. auto.
  Qed.

  Variable t : x_table.
  Hypothesis Ht : entity_check m tile spaces t = true.

  Definition inv (r : rt) : Prop := exists b, x_state m kinds tile spaces t b = true /\ fits b r.

  Lemma got c b : In b (x_get t c) -> x_state m kinds tile spaces t b = true.
  Proof.
    pose proof Ht as H. unfold entity_check, check_with in H. apply andb_prop in H. destruct H as [H _]. unfold x_get.
    destruct (PM.find (loc_key c) t) as [l|] eqn:E; [|intros []]. intros Hb.
    apply PM.elements_correct in E. rewrite forallb_forall in H. specialize (H _ E).
    rewrite forallb_forall in H. auto.
  Qed.

  Definition next_inv (o : outcome) : Prop := match o with Go r => inv r | Stop r => shown (r_out r) len end.

  Lemma in_inv a r : x_in t (Some a) = true -> fits a r -> inv r.
  Proof.
    unfold x_in. intros H Hf. destruct (x_cs a) as [c|]; [|discriminate].
    apply existsb_exists in H. destruct H as (b & Hb & He). apply same_eq in He. subst b.
    exists a. split; auto. eapply got; eauto.
  Qed.

  Lemma after_fits o r : x_in t (x_again m tile o) = true -> fits o r -> fine next_inv (again m r).
  Proof.
    intros H Hf. destruct (x_again m tile o) as [y|] eqn:E; [|discriminate].
    destruct (again_fits _ _ _ Hf E) as (r' & -> & Hf'). cbn. eapply in_inv; eauto.
  Qed.

  Lemma ws_byte_ok c : ws_byte c = true <-> space c.
  Proof. unfold ws_byte, space. rewrite orb_true_iff, andb_true_iff. lia. Qed.

  Lemma kinds_nth n w : nth n kinds None = Some w -> class_ws m n = Some w.
  Proof.
    unfold kinds, class_kinds. generalize (S (fold_right Nat.max 0%nat (map snd (PM.elements (m_class m))))). intros k.
    destruct (Nat.lt_ge_cases n k) as [Hlt|Hge].
    - rewrite (nth_indep _ None (class_ws m 0)) by (rewrite map_length, seq_length; auto).
      rewrite map_nth, seq_nth by auto. auto.
    - rewrite nth_overflow by (rewrite map_length, seq_length; auto). discriminate.
  Qed.

  Lemma all_bytes_in c : 0 <= c < 256 -> In c all_bytes.
  Proof.
    intros H. unfold all_bytes. apply in_map_iff. exists (Z.to_nat c). split; [lia|]. apply in_seq. lia.
  Qed.
  Lemma class_bytes_in c n : 0 <= c < 256 -> PM.find (Z.to_pos (c + 1)) (m_class m) = Some n -> In c (class_bytes m n).
  Proof.
    intros Hc Hn. unfold class_bytes. apply all_bytes_in in Hc. generalize dependent all_bytes. intros l Hl.
    apply filter_In. split; auto. rewrite Hn. apply Nat.eqb_refl.
  Qed.
  Lemma class_ws_ok c n w : 0 <= c < 256 -> PM.find (Z.to_pos (c + 1)) (m_class m) = Some n -> class_ws m n = Some w ->
    (w = true <-> space c).
  Proof.
    intros Hc Hn. pose proof (class_bytes_in c n Hc Hn) as Hin. unfold class_ws.
    generalize dependent (class_bytes m n). intros l Hin Hw. rewrite <- ws_byte_ok. cbv zeta in Hw.
    destruct (forallb ws_byte l) eqn:E1.
    - rewrite forallb_forall in E1. injection Hw as <-. rewrite (E1 _ Hin). tauto.
    - destruct (forallb (fun c => negb (ws_byte c)) l) eqn:E2; [|discriminate]. injection Hw as <-.
      rewrite forallb_forall in E2. specialize (E2 _ Hin). cbv beta in E2. destruct (ws_byte c); [discriminate|].
      split; discriminate.
  Qed.

  Lemma add_ok c w lo p : span_is c lo p -> (w = true <-> space_at text p) -> span_is (add_cls c w) lo (p + 1).
  Proof.
    intros (Hlt & Hc) Hw. split; [lia|]. destruct c, w; cbn [add_cls]; auto.
    - intros i Hi. destruct (Z.eq_dec i p); [subst; tauto|apply Hc; lia].
    - apply Hc. lia.
    - intros i Hi. destruct (Z.eq_dec i p) as [->|]; [intros X; apply Hw in X; discriminate|apply Hc; lia].
  Qed.
  Lemma first_ok w p : (w = true <-> space_at text p) -> span_is (first_cls w) p (p + 1).
  Proof.
    intros Hw. split; [lia|]. destruct w; cbn [first_cls]; intros i Hi; replace i with p by lia; [tauto|].
    intros X. apply Hw in X. discriminate.
  Qed.

  Lemma byte_fits (start : bool) w a b r :
    fits a r -> x_byte start w a = Some b -> (w = true <-> space_at text (r_p r)) ->
    fits b (if start then set_ts (Some (r_p r)) r else r).
  Proof.
    unfold x_byte. intros H Hk Hw. destruct (x_mode a) eqn:Em, start; try discriminate.
    - injection Hk as <-. destruct H. rewrite Em in *. constructor; cbn in *; try solve [auto|discriminate].
      + eauto.
      + intros c [= <-]. eexists. split; [reflexivity|]. apply first_ok; auto.
      + intros E X. apply Hw in X. rewrite X in E. discriminate.
    - destruct (x_before a) as [c|] eqn:E; [|discriminate]. injection Hk as <-.
      destruct H. rewrite Em in *. constructor; cbn in *; try solve [auto|discriminate].
      + intros c' [= <-]. auto.
      + intros c' [= <-]. destruct (f_before0 _ E) as (x & Hx & Hs). exists x. split; auto. apply add_ok; auto.
      + intros E' X. apply Hw in X. rewrite X in E'. discriminate.
  Qed.

  Lemma eof_fits a r : fits a r -> r_p r = len -> fits (x_eof a) r.
  Proof.
    intros H Hp. destruct H. constructor; cbn in *; try solve [auto|discriminate].
    intros _ (H0 & c & Hc & _). rewrite Hp in Hc. unfold len in Hc. rewrite Nat2Z.id in Hc.
    assert (nth_error text (length text) = None) by (apply nth_error_None; auto). congruence.
  Qed.

  Hypothesis Hb : forall c, In c text -> 0 <= c < 256.

  Lemma step_inv r : inv r -> fine next_inv (step m text r).
  Proof.
    intros (a & Hs & H). unfold x_state in Hs. unfold step. rewrite (f_cs _ _ H).
    destruct (x_cs a) as [[i k]|]; [|discriminate].
    unfold dfa_of. destruct (nth_error _ _) as [d|]; [|discriminate]. cbn [bind].
    unfold state_of. destruct (PM.find k (df_sts d)) as [q|]; [|discriminate]. cbn [bind].
    apply andb_prop in Hs. destruct Hs as [Hr He].
    destruct (r_p r =? Z.of_nat (length text)) eqn:Ep.
    - assert (Hp : r_p r = len) by (unfold len; lia). pose proof (eof_fits _ _ H Hp) as F.
      unfold x_at_end in He. destruct (q_eof_to q) as [s|].
      + destruct (x_instrs _ _ _ _ _) as [o|] eqn:E in He; [|discriminate]. cbn [obind] in He.
        eapply fine_bind; [eapply instrs_fits; [|exact E]; apply fits_cs; exact F|].
        intros [r' j] [_ Hf]. eapply after_fits; eauto.
      + destruct (q_eof q); [|discriminate]. cbn [exec_instrs bind fine next_inv].
        pose proof (f_out _ _ H) as Ho. destruct (x_mode a); try discriminate. rewrite <- Hp. auto.
    - destruct (src text (r_p r)) as [c|u|] eqn:Es.
      2,3: replace (r_p (if is_scan_start d k then set_ts (Some (r_p r)) r else r)) with (r_p r) by (destruct (is_scan_start d k); auto);
           rewrite Es; exact I.
      replace (r_p (if is_scan_start d k then set_ts (Some (r_p r)) r else r)) with (r_p r) by (destruct (is_scan_start d k); auto).
      rewrite Es. cbn [bind].
      destruct (PM.find _ (m_class m)) as [cl|] eqn:Ec; cbn [bind fine]; auto.
      destruct (nth_error (q_row q) cl) as [b|] eqn:En; cbn [bind fine]; auto.
      destruct (select text b _) as [e|u|] eqn:Ee; cbn [bind fine]; auto.
      apply select_edge in Ee. apply (fun H => combine_seq_in text (q_row q) 0%nat _ _ H) in En. cbn [Nat.add] in En.
      rewrite forallb_forall in Hr. specialize (Hr _ En). cbn [fst snd] in Hr.
      rewrite forallb_forall in Hr. specialize (Hr _ Ee). unfold x_edge in Hr.
      destruct (nth cl kinds None) as [w|] eqn:Ew; cbn [obind] in Hr; [|discriminate].
      destruct (x_byte _ w a) as [a1|] eqn:Ea; cbn [obind] in Hr; [|discriminate].
      destruct (x_instrs _ _ _ _ _) as [o|] eqn:E in Hr; cbn [obind] in Hr; [|discriminate].
      assert (Hw : w = true <-> space_at text (r_p r)).
      { assert (R : 0 <= r_p r < len) by (eapply src_range; eauto; unfold len; lia).
        unfold src in Es. replace (r_p r <? 0) with false in Es by lia.
        destruct (nth_error text (Z.to_nat (r_p r))) as [x|] eqn:Ex.
        2: { apply nth_error_None in Ex. unfold len in R. lia. }
        injection Es as ->. pose proof (Hb _ (nth_error_In _ _ Ex)) as Hc.
        rewrite (class_ws_ok c cl w Hc Ec (kinds_nth _ _ Ew)). unfold space_at. split.
        - intros S. split; [lia|]. eauto.
        - intros (_ & x & Hx & S). congruence. }
      eapply fine_bind; [eapply instrs_fits; [|exact E]; apply fits_cs; eapply byte_fits; eauto|].
      intros [r' j] [_ Hf]. eapply after_fits; eauto.
  Qed.

  Lemma loop_inv fuel : forall r, inv r -> fine (fun r => shown (r_out r) len) (loop m text fuel r).
  Proof.
    induction fuel; intros r H; cbn [loop]; [exact I|].
    eapply fine_bind; [apply step_inv; auto|]. intros [r'|r'] Hr'; cbn in *; auto.
  Qed.

  Lemma start_inv : fine inv (start m).
  Proof.
    pose proof Ht as H. unfold entity_check, check_with in H. apply andb_prop in H. destruct H as [_ H]. unfold x_start in H.
    destruct (h_entry m 0) as [c|] eqn:E; [|discriminate].
    unfold start. rewrite (entry_same _ _ _ E). cbn [bind fine].
    eapply in_inv; [exact H|]. constructor; cbn; auto; try discriminate.
    constructor; [lia|constructor|constructor|constructor|intros; lia].
  Qed.

  Lemma pairs_rev {A} (R : A -> A -> Prop) l : ForallOrdPairs R l -> ForallOrdPairs (fun a b => R b a) (rev l).
  Proof.
    assert (Happ : forall (Q : A -> A -> Prop) (x y : list A), ForallOrdPairs Q x -> ForallOrdPairs Q y ->
      (forall a b, In a x -> In b y -> Q a b) -> ForallOrdPairs Q (x ++ y)).
    { intros Q x y Hx Hy Hxy. induction Hx as [|a x Ha Hx IH]; cbn; auto. constructor.
      - apply Forall_app. split; auto. apply Forall_forall. intros; apply Hxy; auto. left; auto.
      - apply IH. intros; apply Hxy; auto. right; auto. }
    induction 1 as [|a l Ha Hl IH]; cbn; [constructor|]. apply Happ; auto.
    - constructor; constructor.
    - intros b c Hin [<-|[]]. rewrite Forall_forall in Ha. apply Ha. apply in_rev. auto.
  Qed.

  Theorem entities_shown fuel : fine (fun es =>
    in_order es /\ (spaces = true -> Forall (space_report text) es) /\
    (if tile then all_shown text es else all_space_shown text es)) (parse_entities m text fuel).
  Proof.
    unfold parse_entities. eapply fine_bind; [apply start_inv|]. intros r Hr.
    eapply fine_bind; [apply loop_inv; auto|]. intros r' [Hp Hsp Hin Hord Hall]. cbn [fine]. split; [|split].
    - apply (pairs_rev _ _ Hord).
    - intros Es. apply Forall_rev. auto.
    - destruct tile eqn:Et.
      + intros i Hi. destruct (Hall i Hi (or_introl eq_refl)) as (e & He & Hw). exists e. split; auto. apply -> in_rev. auto.
      + intros i Hi. assert (R : 0 <= i < len).
        { destruct Hi as (H0 & c & Hc & _). assert (Z.to_nat i < length text)%nat by (apply nth_error_Some; congruence). unfold len. lia. }
        destruct (Hall i R (or_intror Hi)) as (e & He & Hw). exists e. split; auto. apply -> in_rev. auto.
  Qed.
End Sound.
