(** What acceptance by [tail_check] means: no report of the parser ends inside a run of
    blanks. *)
From Coq Require Import ZArith String List Bool Lia.
From Verif Require Import Base ParsedModel ParsedSpec RagelSyntax RagelBuild RagelRun TailCheck.
Import ListNotations.
Open Scope Z_scope.

(** There is a byte at [i], and it is not a blank. *)
Definition solid_at (text : list Z) (i : Z) : Prop :=
  0 <= i /\ exists c, nth_error text (Z.to_nat i) = Some c /\ blank c = false.

Definition ends_well (text : list Z) (e : event) : Prop :=
  e_end e = Z.of_nat (length text) \/ solid_at text (e_end e - 1) \/ solid_at text (e_end e).

Section Sound.
  Variable m : machine.
  Variable text : list Z.
  Let len := Z.of_nat (length text).

  (** [P] holds of the result, if there is one. *)
  Definition fine {A} (P : A -> Prop) (x : res A) : Prop := match x with Ok a => P a | _ => True end.
  Lemma fine_bind {A B} (P : A -> Prop) (Q : B -> Prop) x f :
    fine P x -> (forall a, P a -> fine Q (f a)) -> fine Q (bind x f).
  Proof. destruct x; cbn; auto. Qed.
  Lemma fine_imp {A} (P Q : A -> Prop) x : (forall a, P a -> Q a) -> fine P x -> fine Q x.
  Proof. destruct x; cbn; auto. Qed.

  Definition reports (r : rt) : Prop := Forall (ends_well text) (r_out r) /\ Forall (ends_well text) (r_queue r).

  Record fits (a : tst) (r : rt) : Prop := {
    f_cs : r_cs r = t_cs a;
    f_stack : r_stack r = t_stack a;
    f_act : r_act r = t_act a;
    f_ent : forall e, t_ent a = Some e -> r_ent r = e;
    f_c : t_c a = true -> solid_at text (r_p r);
    f_b : t_b a = true -> solid_at text (r_p r - 1);
    f_e : t_e a = true -> forall e, r_te r = Some e -> solid_at text (e - 1);
    f_end : t_end a = true -> r_p r = len;
    f_l : t_l a = true -> exists x, r_ls r = Some x /\ r_p r <= x;
    f_k : t_k a = true -> exists x, r_ls r = Some x /\ forall e, r_te r = Some e -> e - 1 <= x;
    f_d : forall n, t_d a = Some n -> forall e, r_te r = Some e -> e - r_p r <= n;
    f_rep : reports r }.

  Ltac crush :=
    repeat match goal with
           | H : fits _ _ |- _ => destruct H
           | H : reports _ |- _ => destruct H
           end;
    constructor; cbn in *; try solve [auto | intros; try discriminate; eauto | split; auto].

  (** ** Small operations *)
  Lemma fits_ent a r e : fits a r -> fits (v_ent (Some e) a) (set_ent e r).
  Proof. intros H. crush. intros ? [= <-]; auto. Qed.
  Lemma fits_known a r e : fits a r -> r_ent r = e -> fits (v_ent (Some e) a) r.
  Proof. intros H E. crush. intros ? [= <-]; auto. Qed.
  Lemma fits_cs a r c : fits a r -> fits (v_cs c a) (set_cs c r).
  Proof. intros H. crush. Qed.
  Lemma fits_stack a r c : fits a r -> fits (v_stack c a) (set_stack c r).
  Proof. intros H. crush. Qed.
  Lemma fits_act a r c : fits a r -> fits (v_act c a) (set_actid c r).
  Proof. intros H. crush. Qed.
  Lemma fits_vars a r vs : fits a r -> fits a (set_vars vs r).
  Proof. intros H. crush. Qed.
  Lemma fits_seen a r s : fits a r -> fits a (set_seen s r).
  Proof. intros H. crush. Qed.

  Lemma fits_hold a r : fits a r ->
    fits (v_p (t_b a) false false (option_map (fun n => n + 1) (t_d a)) a) (set_p (r_p r - 1) r).
  Proof.
    intros H. crush. intros n. destruct (t_d a) as [d|]; cbn; [|discriminate].
    intros [= <-] e He. specialize (f_d0 _ eq_refl _ He). lia.
  Qed.
  Lemma fits_p a r p : fits a r -> fits (v_p false false false None a) (set_p p r).
  Proof. intros H. crush. Qed.
  Lemma fits_te_next a r : fits a r -> fits (v_te (t_c a) (Some 1) a) (set_te (Some (r_p r + 1)) r).
  Proof.
    intros H. crush.
    - intros E e [= <-]. replace (r_p r + 1 - 1) with (r_p r) by lia. auto.
    - intros n [= <-] e [= <-]. lia.
  Qed.
  Lemma fits_te_here a r : fits a r ->
    fits (v_p (t_b a) false false (Some 1) (v_te (t_b a) None a)) (set_p (r_p r - 1) (set_te (Some (r_p r)) r)).
  Proof.
    intros H. crush.
    - intros E e [= <-]. auto.
    - intros n [= <-] e [= <-]. lia.
  Qed.
  Lemma fits_lag a r x : fits a r -> r_te r = Some x ->
    fits (v_p (t_e a) false (t_k a) (Some 1) a) (set_p (x - 1) r).
  Proof.
    intros H Hx. crush.
    - intros E. destruct (f_k0 E) as (y & Hy & Hl). exists y. split; auto.
    - intros n [= <-] e He. assert (e = x) by congruence. lia.
  Qed.

  Lemma fits_line a r w c s : fits a r -> (forall x, r_ls r = Some x -> s = Some x) -> fits a (set_line w c s r).
  Proof.
    intros H Hs. crush.
    - intros E. destruct (f_l0 E) as (x & Hx & ?). eauto.
    - intros E. destruct (f_k0 E) as (x & Hx & ?). eauto.
  Qed.
  Lemma or_ptr_keeps a b x : a = Some x -> or_ptr a b = Some x.
  Proof. intros ->. auto. Qed.
  Lemma fits_code a r : fits a r -> fits a (do_code r).
  Proof. intros H. apply fits_line; auto. intros x Hx. destruct (r_lcc r); auto using or_ptr_keeps. Qed.
  Lemma fits_ls a r : fits a r -> fits a (do_ls r).
  Proof. intros H. apply fits_line; auto. intros x Hx. auto using or_ptr_keeps. Qed.
  Lemma fits_comment a r : fits a r -> fits a (do_comment r).
  Proof.
    intros H. unfold do_comment. destruct (r_lcc r); auto. apply fits_line; auto.
    intros x Hx. auto using or_ptr_keeps.
  Qed.

  Lemma fits_drop a r : fits a r -> fits (v_ls false false a) r.
  Proof. intros H. crush. Qed.
  Lemma fits_any_line a r w c s : fits a r -> fits (v_ls false false a) (set_line w c s r).
  Proof. intros H. crush. Qed.
  Lemma fits_dequeue a r : fits a r -> fits (v_ls false false a) (dequeue r).
  Proof.
    intros H. unfold dequeue. destruct (r_inq r); auto using fits_drop. cbn. crush.
  Qed.

  (** ** Newlines *)
  Lemma callback_fits a r lang k s e : fits a r -> (forall x, e = Some x -> ends_well text (mkEvent lang k 0 x)) ->
    fine (fits a) (callback lang k s e r).
  Proof.
    intros H He. unfold callback. destruct s as [s|]; cbn; auto. destruct e as [e|]; cbn; auto.
    specialize (He _ eq_refl). crush. split; cbn; auto; constructor; auto; exact He.
  Qed.
  Lemma enqueue_fits a r lang k s e : fits a r -> (forall x, e = Some x -> ends_well text (mkEvent lang k 0 x)) ->
    fine (fits a) (enqueue lang k s e r).
  Proof.
    intros H He. unfold enqueue. destruct s as [s|]; cbn; auto. destruct e as [e|]; cbn; auto.
    specialize (He _ eq_refl). crush. split; cbn; auto; constructor; auto; exact He.
  Qed.

  Lemma newline_fits a r lang : fits a r -> t_e a = true -> fine (fits (v_ls false false a)) (std_newline lang r).
  Proof.
    intros H He. unfold std_newline. apply fits_dequeue in H. set (b := v_ls false false a) in *.
    eapply fine_bind with (P := fits b).
    - destruct (ptr_gt _ _); [|auto]. apply callback_fits; auto. intros x Hx. right. left. cbn.
      eapply f_e; eauto.
    - intros r' Hr'. cbn. change b with (v_ls false false b). apply fits_any_line. auto.
  Qed.

  Lemma internal_fits a r lang : fits a r -> t_b a || t_c a || t_end a || t_l a = true ->
    fine (fits (v_ls true (t_near a) a)) (std_internal_newline lang r).
  Proof.
    intros H Hc. unfold std_internal_newline.
    eapply fine_bind with (P := fits a).
    - destruct (ptr_gt _ _) eqn:Eg; [|auto].
      assert (He : forall lang k x, Some (r_p r) = Some x -> ends_well text (mkEvent lang k 0 x)).
      { intros l k x [= <-]. unfold ends_well. cbn.
        apply orb_prop in Hc. destruct Hc as [Hc|Hc].
        2: { destruct (f_l _ _ H Hc) as (x & Hx & ?). rewrite Hx in Eg. cbn in Eg. lia. }
        apply orb_prop in Hc. destruct Hc as [Hc|Hc].
        2: { left. apply (f_end _ _ H Hc). }
        apply orb_prop in Hc. destruct Hc as [Hc|Hc].
        - right. left. apply (f_b _ _ H Hc).
        - right. right. apply (f_c _ _ H Hc). }
      destruct (r_inq r); [apply enqueue_fits|apply callback_fits]; auto.
    - intros r' Hr'. cbn. crush.
      + intros _. exists (r_p r'). split; auto. lia.
      + unfold t_near. destruct (t_d a) as [n|]; [|discriminate]. intros E. exists (r_p r'). split; auto.
        intros e He. specialize (f_d0 _ eq_refl _ He). lia.
  Qed.

  Lemma emb_fits a (f : string -> rt -> res rt) lang r :
    (forall l, fine (fits a) (f l r)) -> fine (fits a) (emb f lang r).
  Proof.
    intros H. unfold emb. eapply fine_bind; [apply H|]. intros r' Hr'. cbn. apply fits_seen. auto.
  Qed.

  Lemma src_solid i c : src text i = Ok c -> (c =? 10) || (c =? 12) || (c =? 13) = true -> solid_at text i.
  Proof.
    unfold src. destruct (i <? 0) eqn:E; [discriminate|]. intros H Hc. split; [lia|].
    destruct (nth_error text (Z.to_nat i)) eqn:En.
    - injection H as ->. exists c. split; auto. unfold blank.
      destruct (c =? 32) eqn:E1, (c =? 9) eqn:E2; auto; lia.
    - destruct (i =? _) in H; [|discriminate]. injection H as <-. discriminate.
  Qed.
  Lemma blank_entry_solid n : forall pos q, blank_entry n text pos = Ok (Some q) -> solid_at text q.
  Proof.
    induction n; intros pos q; cbn [blank_entry]; [discriminate|].
    destruct (src text pos) as [c|u|] eqn:Es; cbn [bind]; try discriminate.
    destruct ((c =? 10) || (c =? 12)) eqn:E1.
    { intros [= <-]. eapply src_solid; eauto. rewrite E1. auto. }
    destruct (c =? 13) eqn:E2.
    { destruct (src text (pos + 1)) as [d|u|] eqn:Ed; cbn [bind]; try discriminate. intros [= <-].
      destruct (d =? 10) eqn:E3.
      - eapply src_solid; eauto. rewrite E3. auto.
      - eapply src_solid; eauto. rewrite E2, !orb_true_r. auto. }
    destruct ((c =? 9) || (c =? 32)); [apply IHn|intros H; discriminate].
  Qed.

  Definition some_fits (l : list tst) (r : rt) : Prop := exists b, In b l /\ fits b r.
  Lemma one_fits b r : fits b r -> some_fits [b] r.
  Proof. exists b. split; auto. left; auto. Qed.

  Lemma macro_fits a r mc l : fits a r -> h_macro mc a = Some l -> fine (some_fits l) (exec_macro text mc r).
  Proof.
    intros H Hk. destruct mc; cbn [h_macro exec_macro] in *.
    - injection Hk as <-. cbn. apply one_fits, fits_ls, fits_dequeue; auto.
    - injection Hk as <-. cbn. apply one_fits, fits_code, fits_dequeue; auto.
    - injection Hk as <-. cbn. apply one_fits, fits_comment, fits_dequeue; auto.
    - destruct (_ || _) eqn:E; [|discriminate]. injection Hk as <-.
      eapply fine_imp; [intros; apply one_fits; eassumption|]. apply internal_fits; auto.
    - destruct (t_e a) eqn:E; [|discriminate]. injection Hk as <-.
      eapply fine_imp; [intros; apply one_fits; eassumption|]. apply newline_fits; auto.
    - destruct (_ || _) eqn:E; [|discriminate]. injection Hk as <-.
      eapply fine_imp; [intros; apply one_fits; eassumption|]. apply emb_fits. intros. apply internal_fits; auto.
    - destruct (t_e a) eqn:E; [|discriminate]. injection Hk as <-.
      eapply fine_imp; [intros; apply one_fits; eassumption|]. apply emb_fits. intros. apply newline_fits; auto.
    - injection Hk as <-. unfold check_blank_entry.
      destruct (blank_entry _ _ _) as [[q|]|u|] eqn:Eb; cbn [bind fine]; auto.
      2: { exists a. split; auto. left; auto. }
      apply blank_entry_solid in Eb.
      eapply fine_imp; [intros r' Hr'; eexists; split; [right; left; reflexivity|exact Hr']|].
      apply newline_fits; auto. crush.
      + intros _ e [= <-]. replace (q + 1 - 1) with q by lia. auto.
      + intros n [= <-] e [= <-]. lia.
  Qed.

  Lemma happ_some {A} (a b : option (list A)) l : happ a b = Some l -> exists x y, a = Some x /\ b = Some y /\ l = x ++ y.
  Proof. destruct a, b; cbn; try discriminate. intros [= <-]. eauto. Qed.

  Lemma switch_fits l : forall a r bs, fits a r -> h_switch l a = Some bs -> fine (some_fits bs) (switch text l r).
  Proof.
    induction l as [|[e mc] l IH]; intros a r bs H Hk; cbn [h_switch switch] in *.
    - injection Hk as <-. cbn. apply one_fits. auto.
    - destruct (t_ent a) as [x|] eqn:Ee.
      + rewrite (f_ent _ _ H _ Ee). destruct (x =? e); eauto using macro_fits.
      + apply happ_some in Hk. destruct Hk as (l1 & l2 & H1 & H2 & ->).
        destruct (r_ent r =? e) eqn:E.
        * eapply fine_imp; [|eapply macro_fits; [|exact H1]].
          -- intros r' (b & Hb & Hr'). exists b. split; auto. apply in_or_app. auto.
          -- apply fits_known; auto. lia.
        * eapply fine_imp; [|eapply IH; [exact H|exact H2]].
          intros r' (b & Hb & Hr'). exists b. split; auto. apply in_or_app. auto.
  Qed.

  (** ** Statements *)
  Definition next_fits (l : list (tst * bool)) (x : rt * bool) : Prop :=
    exists b, In (b, snd x) l /\ fits b (fst x).
  Lemma one_next b r j : fits b r -> next_fits [(b, j)] (r, j).
  Proof. exists b. split; auto. left; auto. Qed.

  Lemma entry_same i c : h_entry m i = Some c -> entry m i = Ok (Some c).
  Proof. unfold h_entry, entry, dfa_of. destruct (nth_error _ _); [|discriminate]. intros [= <-]. auto. Qed.

  Lemma stmt_fits s a r l : fits a r -> h_stmt m s a = Some l -> fine (next_fits l) (exec_stmt m text s r).
  Proof.
    intros H Hk. destruct s; cbn [h_stmt exec_stmt] in *.
    - injection Hk as <-. apply one_next, fits_ent; auto.
    - destruct (h_switch _ _) as [bs|] eqn:E; [|discriminate]. injection Hk as <-.
      eapply fine_bind; [eapply switch_fits; eauto|]. intros r' (b & Hb & Hr'). exists b. split; auto.
      cbn. apply in_map_iff. exists b. auto.
    - injection Hk as <-. apply one_next, fits_code; auto.
    - injection Hk as <-. apply one_next, fits_comment; auto.
    - injection Hk as <-. apply one_next, fits_ls; auto.
    - injection Hk as <-. apply one_next. crush. split; cbn; auto.
    - injection Hk as <-. apply one_next. destruct (r_inq r); auto. crush.
      split; cbn; auto. apply Forall_app. auto.
    - injection Hk as <-. apply one_next. destruct (_ || _); auto using fits_seen.
    - injection Hk as <-. apply one_next. cbn. apply (fits_line a (set_seen (Some lang) r)); auto using fits_seen.
    - discriminate.
    - injection Hk as <-. apply one_next, fits_vars; auto.
    - injection Hk as <-. destruct (ckint _); cbn; auto. apply one_next, fits_vars; auto.
    - injection Hk as <-. apply one_next, fits_vars; auto.
    - injection Hk as <-. apply one_next, fits_hold; auto.
    - injection Hk as <-. destruct (cint _); cbn; auto. apply one_next, fits_p; auto.
    - destruct (h_entry m _) as [c|] eqn:E; [|discriminate]. injection Hk as <-.
      rewrite (entry_same _ _ E). cbn [bind]. destruct (Nat.ltb _ _); cbn; auto.
      apply one_next. rewrite (f_cs _ _ H), (f_stack _ _ H). apply fits_cs, fits_stack; auto.
    - destruct (h_entry m _) as [c|] eqn:E; [|discriminate]. injection Hk as <-.
      rewrite (entry_same _ _ E). cbn. apply one_next, fits_cs; auto.
    - rewrite (f_stack _ _ H). destruct (t_stack a) as [|c s] eqn:E; [discriminate|]. injection Hk as <-.
      cbn. apply one_next, fits_cs, fits_stack; auto.
  Qed.

  (** Sequences. *)
  Lemma then_fits (f : tst -> option (list (tst * bool))) (g : rt -> res (rt * bool)) :
    (forall a r l, fits a r -> f a = Some l -> fine (next_fits l) (g r)) ->
    forall l bs x, next_fits l x -> h_then f l = Some bs ->
    fine (next_fits bs) (if snd x then Ok (fst x, true) else g (fst x)).
  Proof.
    intros Hf l. induction l as [|[a j] l IH]; intros bs x (b & Hb & Hr) Hk; [destruct Hb|].
    cbn [h_then] in Hk. destruct Hb as [Hb|Hb].
    - injection Hb as -> ->. destruct (snd x) eqn:Ej.
      + destruct (h_then f l); [|discriminate]. injection Hk as <-. exists b. split; auto. left. auto.
      + apply happ_some in Hk. destruct Hk as (l1 & l2 & H1 & H2 & ->).
        eapply fine_imp; [|eapply Hf; eauto]. intros y (b' & Hb' & Hy). exists b'. split; auto.
        apply in_or_app; auto.
    - destruct j.
      + destruct (h_then f l) as [bs'|] eqn:E; [|discriminate]. injection Hk as <-.
        eapply fine_imp; [|eapply IH; [exists b; eauto|reflexivity]].
        intros y (b' & Hb' & Hy). exists b'. split; auto. right; auto.
      + apply happ_some in Hk. destruct Hk as (l1 & l2 & H1 & H2 & ->).
        eapply fine_imp; [|eapply IH; [exists b; eauto|exact H2]].
        intros y (b' & Hb' & Hy). exists b'. split; auto. apply in_or_app; auto.
  Qed.

  Lemma body_fits l : forall a r bs, fits a r -> h_body m l a = Some bs -> fine (next_fits bs) (exec_body m text l r).
  Proof.
    induction l as [|s l IH]; intros a r bs H Hk; cbn [h_body exec_body] in *.
    - injection Hk as <-. apply one_next; auto.
    - destruct (h_stmt m s a) as [l1|] eqn:E; cbn [hbind] in Hk; [|discriminate].
      eapply fine_bind; [eapply stmt_fits; eauto|]. intros [r' j] Hx.
      apply (then_fits _ _ IH l1 bs (r', j) Hx Hk).
  Qed.

  Lemma part_fits d i a r bs : fits a r -> h_part m d i a = Some bs -> fine (next_fits bs) (exec_part m text d i r).
  Proof.
    unfold h_part, exec_part. intros H Hk. destruct (nth_error _ _) as [[x|]|]; try discriminate.
    - eapply body_fits; eauto.
    - injection Hk as <-. apply one_next; auto.
  Qed.

  Lemma instr_fits d i a r bs : fits a r -> h_instr m d i a = Some bs -> fine (next_fits bs) (exec_instr m text d i r).
  Proof.
    intros H Hk. destruct i; cbn [h_instr exec_instr] in *.
    - eapply body_fits; eauto.
    - injection Hk as <-. apply one_next, fits_te_next; auto.
    - injection Hk as <-. apply one_next, fits_act; auto.
    - eapply part_fits; [|eauto]. apply fits_te_next; auto.
    - eapply part_fits; [|eauto]. apply fits_te_here; auto.
    - destruct (r_te r) as [x|] eqn:E; cbn [cint bind fine]; auto.
      eapply part_fits; [|eauto]. apply fits_lag; auto.
    - rewrite (f_act _ _ H). destruct (t_act a) as [i|].
      + destruct (r_te r) as [x|] eqn:E; cbn [cint bind fine]; auto.
        eapply part_fits; [|eauto]. apply fits_lag; auto.
      + injection Hk as <-. apply one_next, fits_cs; auto.
  Qed.

  Lemma instrs_fits d l : forall a r bs, fits a r -> h_instrs m d l a = Some bs -> fine (next_fits bs) (exec_instrs m text d l r).
  Proof.
    induction l as [|s l IH]; intros a r bs H Hk; cbn [h_instrs exec_instrs] in *.
    - injection Hk as <-. apply one_next; auto.
    - destruct (h_instr m d s a) as [l1|] eqn:E; cbn [hbind] in Hk; [|discriminate].
      eapply fine_bind; [eapply instr_fits; eauto|]. intros [r' j] Hx.
      apply (then_fits _ _ IH l1 bs (r', j) Hx Hk).
  Qed.

  (** ** Steps *)
  Lemma again_fits a b r : fits a r -> h_again m a = Some b ->
    exists r', again m r = Ok (Go r') /\ fits b r'.
  Proof.
    unfold h_again, again. intros H. rewrite (f_cs _ _ H). destruct (t_cs a) as [[i k]|] eqn:Ec; [|discriminate].
    unfold dfa_of. destruct (nth_error _ _) as [d|]; [|discriminate]. intros [= <-]. cbn [bind].
    eexists. split; [reflexivity|].
    destruct (is_scan_start d k); crush.
    all: try solve [intros E; replace (r_p r + 1 - 1) with (r_p r) by lia; auto].
    all: try congruence.
    all: intros n; destruct (t_d a) as [x|]; cbn; [|discriminate]; intros [= <-] e He;
      specialize (f_d0 _ eq_refl _ He); lia.
  Qed.

  Lemma oloc_same_eq a b : oloc_same a b = true -> a = b.
  Proof.
    destruct a as [[i k]|], b as [[i' k']|]; cbn; try discriminate; auto.
    intros H. apply andb_prop in H. destruct H as [H1 H2]. apply Nat.eqb_eq in H1. apply Pos.eqb_eq in H2. congruence.
  Qed.
  Lemma stack_same_eq a : forall b, stack_same a b = true -> a = b.
  Proof.
    induction a as [|x a IH]; intros [|y b]; cbn; try discriminate; auto.
    intros H. apply andb_prop in H. destruct H as [H1 H2]. apply oloc_same_eq in H1. apply IH in H2. congruence.
  Qed.
  Lemma nat_same_eq a b : nat_same a b = true -> a = b.
  Proof. destruct a, b; cbn; try discriminate; auto. intros H. apply Nat.eqb_eq in H. congruence. Qed.

  Lemma le_fits a b r : t_le a b = true -> fits a r -> fits b r.
  Proof.
    unfold t_le. intros H F.
    repeat match goal with H : _ && _ = true |- _ => apply andb_prop in H; destruct H end.
    repeat match goal with
           | H : oloc_same _ _ = true |- _ => apply oloc_same_eq in H
           | H : stack_same _ _ = true |- _ => apply stack_same_eq in H
           | H : nat_same _ _ = true |- _ => apply nat_same_eq in H
           end.
    assert (I : forall x y, x || negb y = true -> y = true -> x = true) by (intros [] []; auto).
    destruct F. constructor; auto; try congruence; try solve [intros E; match goal with F : _ = true -> _ |- _ => apply F; eapply I; eauto end].
    - intros e He. rewrite He in *. destruct (t_ent a) as [x|] eqn:E; [|discriminate].
      apply f_ent0. f_equal. lia.
    - intros n Hn e He. rewrite Hn in *. destruct (t_d a) as [x|] eqn:E; [|discriminate].
      specialize (f_d0 _ eq_refl _ He). lia.
  Qed.

  Variable t : h_table.
  Hypothesis Ht : tail_check m t = true.

  Definition inv (r : rt) : Prop := exists b, h_state m t b = true /\ fits b r.

  Lemma got c b : In b (h_get t c) -> h_state m t b = true.
  Proof.
    pose proof Ht as H. unfold tail_check in H. apply andb_prop in H. destruct H as [H _]. unfold h_get.
    destruct (PM.find (loc_key c) t) as [l|] eqn:E; [|intros []]. intros Hb.
    apply PM.elements_correct in E. rewrite forallb_forall in H. specialize (H _ E).
    rewrite forallb_forall in H. auto.
  Qed.

  Definition next_inv (o : outcome) : Prop := match o with Go r => inv r | Stop r => reports r end.

  Lemma covered_fits a r : h_covered m t a = true -> fits a r -> fine next_inv (again m r).
  Proof.
    unfold h_covered. intros Hk H. destruct (t_cs a) as [c|] eqn:Ec.
    - destruct (h_again m a) as [y|] eqn:Ea; [|discriminate].
      destruct (again_fits _ _ _ H Ea) as (r' & -> & Hf). cbn.
      apply existsb_exists in Hk. destruct Hk as (b & Hb & Hl).
      exists b. split; [eapply got; eauto|eapply le_fits; eauto].
    - unfold again. rewrite (f_cs _ _ H), Ec. cbn. apply (f_rep _ _ H).
  Qed.

  Lemma solid_class_ok c n : src text c = Ok n -> 0 <= c < len ->
    forall cl, PM.find (Z.to_pos (n + 1)) (m_class m) = Some cl -> solid_class m cl = true -> solid_at text c.
  Proof.
    intros Hs Hc cl Hcl Hsol. split; [lia|]. unfold src in Hs. replace (c <? 0) with false in Hs by lia.
    destruct (nth_error text (Z.to_nat c)) as [x|] eqn:En.
    2: { apply nth_error_None in En. unfold len in Hc. lia. }
    injection Hs as ->. exists n. split; auto. unfold solid_class in Hsol. cbn [forallb] in Hsol.
    apply andb_prop in Hsol. destruct Hsol as [H9 H]. apply andb_prop in H. destruct H as [H32 _].
    unfold blank. destruct (Z.eqb_spec n 32) as [->|]; [|destruct (Z.eqb_spec n 9) as [->|]; auto].
    - rewrite Hcl, Nat.eqb_refl in H32. discriminate.
    - rewrite Hcl, Nat.eqb_refl in H9. discriminate.
  Qed.

  Lemma select_edge b r e : select text b r = Ok e -> In e (branch_edges b).
  Proof.
    induction b; cbn [select branch_edges].
    - intros [= <-]. left; auto.
    - destruct (eval_cond text c r) as [x|u|]; cbn [bind]; try discriminate.
      intros H. apply in_or_app. destruct x; auto.
  Qed.

  Lemma all_fits P o bs : h_all P o = true -> o = Some bs -> forall x, In x bs -> P x = true.
  Proof. intros H -> x. cbn in H. rewrite forallb_forall in H. auto. Qed.

  Lemma byte_fits a r n : fits a r -> (n = true -> solid_at text (r_p r)) -> fits (h_byte n a) r.
  Proof. intros H Hs. crush. Qed.
  Lemma eof_fits a r : fits a r -> r_p r = len -> fits (h_eof a) r.
  Proof. intros H Hs. crush. Qed.
  Lemma ts_fits a r x : fits a r -> fits a (set_ts x r).
  Proof. intros H. crush. Qed.

  Lemma combine_seq_in {A} (l : list A) : forall i n x, nth_error l n = Some x -> In ((i + n)%nat, x) (combine (seq i (length l)) l).
  Proof.
    induction l as [|y l IH]; intros i n x; destruct n; cbn; try discriminate.
    - intros [= ->]. left. f_equal. lia.
    - intros H. right. replace (i + S n)%nat with (S i + n)%nat by lia. auto.
  Qed.

  Lemma src_range i c : src text i = Ok c -> i <> len -> 0 <= i < len.
  Proof.
    unfold src. destruct (i <? 0) eqn:E; [discriminate|]. intros H Hi.
    destruct (nth_error text (Z.to_nat i)) eqn:En.
    - assert (Z.to_nat i < length text)%nat by (apply nth_error_Some; congruence). unfold len. lia.
    - destruct (Z.eqb_spec i (Z.of_nat (length text))); [|discriminate]. unfold len in Hi. lia.
  Qed.

  Lemma step_inv r : inv r -> fine next_inv (step m text r).
  Proof.
    intros (a & Hs & H). unfold h_state in Hs. unfold step. rewrite (f_cs _ _ H).
    destruct (t_cs a) as [[i k]|]; [|discriminate].
    unfold dfa_of. destruct (nth_error _ _) as [d|]; [|discriminate]. cbn [bind].
    unfold state_of. destruct (PM.find k (df_sts d)) as [q|]; [|discriminate]. cbn [bind].
    apply andb_prop in Hs. destruct Hs as [Hb He].
    destruct (r_p r =? Z.of_nat (length text)) eqn:Ep.
    - assert (Hp : r_p r = len) by (unfold len; lia). pose proof (eof_fits _ _ H Hp) as F.
      destruct (q_eof_to q) as [s|].
      + destruct (h_instrs _ _ _ _) as [bs|] eqn:E in He; [|discriminate].
        eapply fine_bind; [eapply instrs_fits; [|exact E]; apply fits_cs; exact F|].
        intros [r' j] (b & Hin & Hf). cbn in He. rewrite forallb_forall in He. specialize (He _ Hin).
        eapply covered_fits; eauto.
      + destruct (h_instrs _ _ _ _) as [bs|] eqn:E in He; [|discriminate].
        eapply fine_bind; [eapply instrs_fits; [|exact E]; exact F|].
        intros [r' j] (b & Hin & Hf). cbn in He. rewrite forallb_forall in He. specialize (He _ Hin).
        cbn in He. destruct j; [eapply covered_fits; eauto|]. cbn. apply (f_rep _ _ Hf).
    - set (r1 := if is_scan_start d k then set_ts (Some (r_p r)) r else r).
      assert (F : fits a r1) by (unfold r1; destruct (is_scan_start d k); auto using ts_fits).
      assert (Ep1 : r_p r1 = r_p r) by (unfold r1; destruct (is_scan_start d k); auto).
      rewrite <- Ep1 in Ep. clearbody r1.
      destruct (src text (r_p r1)) as [c|u|] eqn:Es; cbn [bind fine]; auto.
      destruct (PM.find _ (m_class m)) as [cl|] eqn:Ec; cbn [bind fine]; auto.
      destruct (nth_error (q_row q) cl) as [b|] eqn:En; cbn [bind fine]; auto.
      destruct (select text b r1) as [e|u|] eqn:Ee; cbn [bind fine]; auto.
      apply select_edge in Ee. apply (combine_seq_in _ 0) in En. cbn [Nat.add] in En.
      eapply row_ok_in in Hb; [|intros n0 e0 H0; exact H0|intros ? ? []|exact En|exact Ee].
      unfold h_edge in Hb. destruct (h_instrs _ _ _ _) as [bs|] eqn:E in Hb; [|discriminate].
      eapply fine_bind; [eapply instrs_fits; [|exact E]; apply fits_cs, byte_fits; [exact F|]|].
      + intros Hsol. eapply solid_class_ok; eauto. eapply src_range; eauto. unfold len. lia.
      + intros [r' j] (b' & Hin & Hf). cbn in Hb. rewrite forallb_forall in Hb. specialize (Hb _ Hin).
        eapply covered_fits; eauto.
  Qed.

  Lemma loop_reports fuel : forall r, inv r -> fine reports (loop m text fuel r).
  Proof.
    induction fuel; intros r H; cbn [loop]; [exact I|].
    eapply fine_bind; [apply step_inv; auto|]. intros [r'|r'] Hr'; cbn in *; auto.
  Qed.

  Lemma start_inv : fine inv (start m).
  Proof.
    pose proof Ht as H. unfold tail_check in H. apply andb_prop in H. destruct H as [_ H]. unfold h_start in H.
    destruct (h_entry m 0) as [c|] eqn:E; [|discriminate]. cbn [option_map t_cs] in H.
    unfold start. rewrite (entry_same _ _ E). cbn [bind fine].
    apply existsb_exists in H. destruct H as (b & Hb & Hl).
    exists b. split; [eapply got; eauto|]. eapply le_fits; [exact Hl|].
    constructor; cbn; auto; try discriminate.
    - intros e [= <-]. auto.
    - split; constructor.
  Qed.

  (** No report ends inside a run of blanks. *)
  Theorem parse_ends fuel : fine (Forall (ends_well text)) (parse m text fuel).
  Proof.
    unfold parse. eapply fine_bind; [apply start_inv|]. intros r Hr.
    eapply fine_bind; [apply loop_reports; auto|]. intros r' Hr'.
    eapply fine_bind with (P := reports).
    - unfold process_last_line. destruct (_ || _); [|auto]. unfold callback.
      destruct (r_ls r') as [x|]; cbn; auto. destruct Hr'. split; cbn; auto.
      constructor; auto. left. reflexivity.
    - intros r2 [Ho _]. cbn. apply Forall_rev. auto.
  Qed.
End Sound.
