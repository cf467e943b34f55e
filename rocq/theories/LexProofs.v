(** Soundness of the check of LexCheck.v. *)
From Coq Require Import ZArith String List Bool Lia.
From Verif Require Import Base ParsedModel RagelSyntax RagelBuild RagelRun LineSpec LexSpec LexCheck LexFacts.
Import ListNotations.
Open Scope Z_scope.

Section Sound.
  Variable x : lexis.
  Variable lang : string.
  Variable m : machine.
  Variable text : list Z.
  Variable total : list event.
  Hypothesis Hsane : sane x = true.

  Definition at_ (b : Z) : list Z := skipn (Z.to_nat b) text.

  Lemma at_skip b n : 0 <= b -> skipn n (at_ b) = at_ (b + Z.of_nat n).
  Proof.
    intros Hb. unfold at_. replace (Z.to_nat (b + Z.of_nat n)) with (n + Z.to_nat b)%nat by lia.
    generalize text as l. induction (Z.to_nat b) as [|k IH]; intros l; [rewrite Nat.add_0_r; reflexivity|].
    rewrite Nat.add_succ_r. destruct l as [|c l]; [apply skipn_nil|]. cbn [skipn]. apply IH.
  Qed.

  Lemma at_len b : 0 <= b -> b <= zlen text -> zlen (at_ b) = zlen text - b.
  Proof. intros H1 H2. unfold at_. rewrite skipn_length. lia. Qed.

  Lemma at_nth b i : 0 <= b -> 0 <= i -> nth_error (at_ b) (Z.to_nat i) = nth_error text (Z.to_nat (b + i)).
  Proof.
    intros Hb Hi. unfold at_. replace (Z.to_nat (b + i)) with (Z.to_nat b + Z.to_nat i)%nat by lia.
    generalize text as l, (Z.to_nat i) as j. induction (Z.to_nat b) as [|k IH]; intros l j; [reflexivity|].
    destruct l as [|c l]; [cbn; destruct j; reflexivity|]. cbn [skipn]. rewrite IH. reflexivity.
  Qed.

  Lemma vis_len v n b : 0 <= b -> b <= zlen text -> vis v n (at_ b) -> b + zlen v <= zlen text.
  Proof.
    intros H1 H2 (t & Ht & _). pose proof (at_len b H1 H2) as Hl. rewrite Ht, app_length in Hl. lia.
  Qed.

  (** The byte before the offset is CR, LF or FF, or there is none. *)
  Definition starts_at (b : Z) : bool := (b =? 0) || newline_byte (nth (Z.to_nat (b - 1)) text 0).

  Lemma starts_step b n : 0 <= b -> n <> O -> starts n (at_ b) = starts_at (b + Z.of_nat n).
  Proof.
    intros Hb Hn. unfold starts, starts_at, at_. replace (b + Z.of_nat n =? 0) with false by (symmetry; apply Z.eqb_neq; lia).
    cbn [orb]. f_equal. replace (Z.to_nat (b + Z.of_nat n - 1)) with (Z.to_nat b + (n - 1))%nat by lia.
    generalize text as l, (n - 1)%nat as j. induction (Z.to_nat b) as [|k IH]; intros l j; [reflexivity|].
    destruct l as [|c l]; [cbn; destruct j; reflexivity|]. cbn [skipn]. rewrite IH. reflexivity.
  Qed.

  (** ** The relation of abstract and concrete states *)

  (** Inside of a token; between two tokens; anywhere. *)
  Inductive phase := Tok | Sep | Any.

  Definition ls_ok (ph : phase) (a : ast) (L : Z) (r : rt) : Prop :=
    match ph with
    | Tok => b_ls a = false -> b_nl a = false -> r_ts r = Some L
    | Sep => (b_ls a = false -> r_p r = L) /\ b_inq a = None
    | Any => True
    end.

  Definition queue (r : rt) : list event := if r_inq r then r_queue r else [].

  Definition off_ok (dp : depth) (pl : place) (r : rt) : Prop :=
    forall v o, d_off dp = Some (v, o) -> var_get (r_vars r) v = depth_of pl + o.

  Definition inq_ok (ph : phase) (a : ast) (L : Z) (r : rt) : Prop :=
    match b_inq a with
    | None => r_inq r = false
    | Some q => r_inq r = true /\ r_last_lcc r = q_c q /\ r_last_wlc r = q_w q
        /\ (q_cur q = true -> r_queue r = []
            /\ if q_s q then r_last_ls r = Some L else r_last_ls r = None /\ (ph = Tok -> r_ts r = Some L))
    end.

  Definition acc_ok (a : ast) (L b : Z) (r : rt) : Prop :=
    match b_try a with
    | None => exists pl rest, place_ok x (b_at a) (d_z (b_dep a)) (b_now a) pl (at_ b) /\ off_ok (b_dep a) pl r
        /\ Acc x lang pl L b (b_now a) (at_ b) rest /\ total = rev (r_out r) ++ rev (queue r) ++ rest
    | Some y => b_inq a = None /\ exists g n b0 rest,
        b_at a = AIn (y_j y) /\ region_of x (y_j y) = Some g
        /\ place_ok x (AIn (y_j y)) (d_z (b_dep a)) (b_now a) (Inside g n) (at_ b) /\ off_ok (b_dep a) (Inside g n) r
        /\ 0 <= L <= b0 /\ (b0 <= zlen text /\ n_start (y_now y) = starts_at b0)
        /\ vis (y_v y) NAny (at_ b0)
        /\ (forall g', In g' (firstn (y_j y) (x_regions x)) -> suits (y_now y) g' && opens g' (at_ b0) = false)
        /\ (opens g (at_ b0) = true <-> Cl g n (at_ b))
        /\ Acc x lang Out L b0 (y_now y) (at_ b0) rest
        /\ (Cl g n (at_ b) -> Acc x lang (Inside g n) L b (b_now a) (at_ b) rest)
        /\ total = rev (r_out r) ++ rest
        /\ (forall t, y_te y = Some t -> r_te r = Some (b0 + t))
        /\ (forall t, y_ts y = Some t -> r_ts r = Some (b0 + t))
    end.

  Record rel (ph : phase) (C : option loc) (a : ast) (L b : Z) (r : rt) : Prop := mkRel {
    R_cs : r_cs r = C;
    R_L : 0 <= L <= b;
    R_len : b <= zlen text;
    R_vis : vis (b_v a) (b_nx a) (at_ b);
    R_p : forall i, b_p a = Some i -> r_p r = b + i;
    R_te : forall t, b_te a = Some t -> r_te r = Some (b + t);
    R_ts : forall t, b_ts a = Some t -> r_ts r = Some (b + t);
    R_ent : forall e, b_ent a = Some e -> r_ent r = e;
    R_act : forall e, b_act a = Some e -> r_act r = Some e;
    R_lcc : r_lcc r = b_lcc a;
    R_wlc : r_wlc r = b_wlc a;
    R_ls : r_ls r = if b_ls a then Some L else None;
    R_ls2 : ls_ok ph a L r;
    R_nl : b_nl a = true -> L = b;
    R_inq : inq_ok ph a L r;
    R_st : n_start (b_now a) = starts_at b;
    R_acc : acc_ok a L b r }.

  Lemma less_ok n o b (q : ptr) : (forall t, o = Some t -> q = Some (b + t)) ->
    forall t, less n o = Some t -> q = Some (b + Z.of_nat n + t).
  Proof.
    intros H t. destruct o as [u|]; cbn [less]; [|discriminate]. destruct (u <? Z.of_nat n); [discriminate|].
    intros [= <-]. rewrite (H u eq_refl). f_equal. lia.
  Qed.
  Lemma minus_ok n o b p : (forall i, o = Some i -> p = b + i) ->
    forall i, option_map (fun p => p - Z.of_nat n) o = Some i -> p = b + Z.of_nat n + i.
  Proof. intros H i. destruct o as [u|]; cbn; [|discriminate]. intros [= <-]. rewrite (H u eq_refl). lia. Qed.

  (** The trial fails. *)
  Lemma revert_ok ph C a L b r y : rel ph C a L b r -> b_try a = Some y -> b_nl a = false ->
    (forall g n, place_ok x (b_at a) (d_z (b_dep a)) (b_now a) (Inside g n) (at_ b) -> region_of x (y_j y) = Some g -> ~ Cl g n (at_ b)) ->
    exists b', rel ph C (revert y a) L b' r.
  Proof.
    intros H Hy Hnl Hc. destruct H. unfold acc_ok in R_acc0. rewrite Hy in R_acc0.
    destruct R_acc0 as (Hq & g & n & b0 & rest & Hat & Hg & Hp & Ho & HL & Hb0 & Hv & Hbef & Hop & HA & _ & Ht & Hte & Hts).
    exists b0. unfold inq_ok in R_inq0. rewrite Hq in R_inq0.
    rewrite Hat in Hc. specialize (Hc g n Hp Hg). destruct Hb0 as [Hb0 Hst].
    constructor; cbn; auto.
    - destruct (b_p a) as [p|] eqn:Ep; [|discriminate]. destruct (b_te a) as [t|] eqn:Et; [|discriminate].
      destruct (y_te y) as [t0|] eqn:Ey; [|discriminate]. intros i [= <-].
      rewrite (R_p0 _ eq_refl). specialize (R_te0 _ eq_refl). specialize (Hte _ eq_refl). rewrite R_te0 in Hte.
      injection Hte as Hte. lia.
    - intros Hn. congruence.
    - unfold inq_ok. cbn. rewrite Hq. auto.
    - unfold acc_ok. cbn. exists Out, rest. split; [|split; [|split; [auto|]]].
      + split; auto. intros g' Hg'. destruct (Nat.lt_ge_cases (y_j y) (length (x_regions x))) as [Hj|Hj].
        * assert (firstn (S (y_j y)) (x_regions x) = firstn (y_j y) (x_regions x) ++ [g]) as E.
          { unfold region_of in Hg. revert Hg. clear. generalize (y_j y) as j. induction (x_regions x) as [|h l IH]; intros [|j] Hg; try discriminate.
            - injection Hg as ->. reflexivity.
            - cbn [firstn app]. f_equal. apply IH. exact Hg. }
          change (In g' (firstn (S (y_j y)) (x_regions x))) in Hg'. rewrite E in Hg'. apply in_app_or in Hg' as [Hg'|[<-|[]]]; auto.
          destruct (opens g (at_ b0)); [|apply andb_false_r]. exfalso. apply Hc. apply Hop. reflexivity.
        * apply nth_error_None in Hj. unfold region_of in Hg. congruence.
      + intros v o Hv'. discriminate Hv'.
      + unfold queue. rewrite R_inq0. cbn. auto.
  Qed.

  Lemma advance_te n k w t z a : b_te (advance n k w t (deepen w z a)) = less n (b_te a).
  Proof. reflexivity. Qed.

  Lemma mark_start k s h : n_start (mark k s h) = s.
  Proof. destruct k; reflexivity. Qed.

  (** A piece without line end is read. *)
  Lemma bytes_ok ph C a L b r i k w dd : rel ph C a L b r -> b_nl a = false ->
    known x a = Sure (Some (ABytes i k w dd)) -> (i <= length (b_v a))%nat -> i <> O ->
    rel ph C (advance i k w (match w with AOut _ => None | AIn _ => b_try a end) (deepen w dd a)) L (b + Z.of_nat i) r.
  Proof.
    intros H Hnl Hk Hi Hi0. destruct H.
    pose proof (vis_len _ _ b ltac:(lia) R_len0 R_vis0) as Hlen.
    assert (Hsk : skipn i (at_ b) = at_ (b + Z.of_nat i)) by (apply at_skip; lia).
    pose proof (vis_starts _ _ _ _ Hi Hi0 R_vis0) as Hst.
    assert (Hacc : acc_ok (advance i k w (match w with AOut _ => None | AIn _ => b_try a end) (deepen w dd a)) L (b + Z.of_nat i) r).
    { unfold acc_ok in *. cbn [b_try advance u_pos u_ref].
      destruct (b_try a) as [y|] eqn:Ey.
      - destruct R_acc0 as (Hq & g & n & b0 & rest & Hat & Hg & Hp & Ho & HL & Hb0 & Hv & Hbef & Hop & HA & HC & Ht & Hte & Hts).
        unfold known in Hk. rewrite Hat in Hk.
        pose proof (known_ok x _ _ _ _ _ _ _ Hp R_vis0) as Hko. rewrite Hk in Hko. cbn [sure_ok] in Hko.
        destruct Hko as (Hs & pl' & Hpc & Hp' & Hd1 & Hd2). specialize (Hp' Hi0 (mark k (starts i (b_v a)) (b_now a))).
        destruct w as [kk|j'].
        + destruct Hp' as [-> Hp']. cbn [piece_of] in Hpc. assert (HCl := Cl_out _ _ _ _ _ Hpc).
          exists Out, rest. cbn [b_at b_dep advance u_pos u_ref deepen u_dep d_z d_off b_now b_v]. split; [split; auto; rewrite <- Hsk; auto|].
          split. { intros v o Hvo. cbn in Hvo. rewrite Hat in Hvo. discriminate. }
          split. { rewrite <- Hsk, Hst. apply (Acc_bytes x lang (Inside g n) _ _ _ _ _ _ _ _ Hs Hpc (HC HCl)). }
          unfold queue. unfold inq_ok in R_inq0. rewrite Hq in R_inq0. rewrite R_inq0. cbn. auto.
        + subst j'. assert (Hp2 := Hp'). destruct Hp' as (g' & n' & Hg' & -> & Hn' & Hz').
          assert (g' = g) as -> by congruence. cbn [piece_of] in Hpc.
          assert (HCs := Cl_step _ _ _ _ _ _ _ (or_introl Hpc)). rewrite Hsk in HCs.
          split; [exact Hq|]. exists g, n', b0, rest. cbn [b_at b_dep advance u_pos u_ref deepen u_dep d_z d_off b_now b_v].
          split; [reflexivity|]. split; [auto|]. rewrite Hat in *.
          split; [rewrite <- Hsk; auto|].
          split. { intros v o Hvo. cbn in Hvo. destruct (d_off (b_dep a)) as [[v' o']|] eqn:Eo; [|discriminate].
                   cbn in Hvo. injection Hvo as <- <-. rewrite (Ho _ _ Eo). cbn [depth_of] in *. lia. }
          split; [auto|]. split; [auto|]. split; [auto|]. split; [auto|].
          split; [rewrite <- HCs; auto|]. split; [auto|].
          split. { intros HC'. rewrite <- HCs in HC'. rewrite <- Hsk, Hst. apply (Acc_bytes x lang (Inside g n) _ _ _ _ _ _ _ _ Hs Hpc (HC HC')). }
          auto.
      - destruct R_acc0 as (pl & rest & Hp & Ho & HA & Ht).
        pose proof (known_ok x _ _ _ _ _ _ _ Hp R_vis0) as Hko. unfold known in Hk. rewrite Hk in Hko. cbn [sure_ok] in Hko.
        destruct Hko as (Hs & pl' & Hpc & Hp' & Hd1 & Hd2). specialize (Hp' Hi0 (mark k (starts i (b_v a)) (b_now a))).
        assert (match (match w with AOut _ => None | AIn _ => @None try end) with None => True | Some _ => False end) as E by (destruct w; exact I).
        destruct (match w with AOut _ => None | AIn _ => @None try end) eqn:Ew; [destruct w; discriminate|].
        clear E Ew.
        exists pl', rest. cbn [b_at b_dep advance u_pos u_ref deepen u_dep d_z d_off b_now b_v].
        split; [rewrite <- Hsk; auto|].
        split. { intros v o Hvo. cbn in Hvo. destruct (b_at a) as [k0|j0].
          - rewrite Hd2. apply Ho in Hvo. destruct Hp as [-> _]. exact Hvo.
          - destruct w as [k1|j1]; [discriminate|]. destruct (d_off (b_dep a)) as [[v' o']|] eqn:Eo; [|discriminate].
            cbn in Hvo. injection Hvo as <- <-. rewrite (Ho _ _ Eo). lia. }
        split; [rewrite <- Hsk, Hst; eapply Acc_bytes; eauto|auto]. }
    constructor; auto.
    - lia.
    - lia.
    - cbn. rewrite <- Hsk. apply vis_skip; auto.
    - cbn. apply minus_ok. auto.
    - cbn. apply less_ok. auto.
    - cbn. apply less_ok. auto.
    - cbn. congruence.
    - cbn. rewrite mark_start, Hst. apply starts_step; [lia|auto].
  Qed.

  (** A comment or string is opened on trial. *)
  Lemma open_ok ph C a L b r j g : rel ph C a L b r -> b_nl a = false ->
    known x a = Trial j -> region_of x j = Some g -> b_try a = None -> b_inq a = None ->
    (length (g_open g) <= length (b_v a))%nat -> length (g_open g) <> O ->
    rel ph C (on_trial j g (deepen (AIn j) 0 a)) L (b + zlen (g_open g)) r.
  Proof.
    intros H Hnl Hk Hg Hy Hq Hi Hi0. destruct H.
    pose proof (vis_starts _ _ _ _ Hi Hi0 R_vis0) as Hst.
    pose proof (vis_len _ _ b ltac:(lia) R_len0 R_vis0) as Hlen.
    assert (Hsk : skipn (length (g_open g)) (at_ b) = at_ (b + zlen (g_open g))) by (apply at_skip; lia).
    constructor; auto.
    - lia.
    - lia.
    - cbn. rewrite <- Hsk. apply vis_skip; auto.
    - cbn. apply minus_ok. auto.
    - cbn. apply less_ok. auto.
    - cbn. apply less_ok. auto.
    - cbn. congruence.
    - cbn. rewrite mark_start, Hst. apply starts_step; [lia|auto].
    - unfold acc_ok in *. cbn [b_try on_trial advance u_pos u_ref]. rewrite Hy in R_acc0.
      destruct R_acc0 as (pl & rest & Hp & Ho & HA & Ht).
      pose proof (known_ok x _ _ _ _ _ _ _ Hp R_vis0) as Hko. unfold known in Hk. rewrite Hk in Hko.
      destruct Hko as (-> & (k & Hat) & Hs & g' & Hg' & Hm & Hh & Hsu & Hbef & Hpc).
      assert (g' = g) as -> by congruence.
      split; [exact Hq|]. exists g, O, b, rest. cbn.
      assert (Hreg : In g (x_regions x)) by (eapply nth_error_In; exact Hg).
      pose proof (opens_must g (at_ b) (sane_region x Hsane g Hreg) Hm Hh) as Hop. rewrite Hsk in Hop.
      split; [reflexivity|]. split; [auto|].
      split. { exists g, O. rewrite Hat. cbn. repeat split; auto. congruence. }
      split. { intros v o Hvo. cbn in Hvo. rewrite Hat in Hvo. apply Ho in Hvo. exact Hvo. }
      split; [lia|]. split; [auto|]. split; [eapply vis_any; eauto|]. split; [auto|]. split; [auto|]. split; [auto|].
      split. { intros HC. apply Hop in HC. rewrite <- Hsk. rewrite Hst. eapply Acc_bytes; [|apply Hpc|]; eauto. }
      split. { rewrite Ht. unfold queue. unfold inq_ok in R_inq0. rewrite Hq in R_inq0. rewrite R_inq0. reflexivity. }
      auto.
  Qed.

  Lemma sure_none_ok ph C a L b r : rel ph C a L b r -> known x a = Sure None -> b_try a = None -> False.
  Proof.
    intros H Hk Hy. destruct H. unfold acc_ok in R_acc0. rewrite Hy in R_acc0.
    destruct R_acc0 as (pl & rest & Hp & Ho & HA & Ht).
    pose proof (known_ok x _ _ _ _ _ _ _ Hp R_vis0) as Hko. unfold known in Hk. rewrite Hk in Hko. cbn in Hko.
    destruct Hko as [[Hs Hko]|[Hs Hko]]; [eapply Acc_none; eauto|].
    rewrite Hs in HA. apply Acc_nil in HA as [HA _]. congruence.
  Qed.

  Definition kept (a a' : ast) : Prop := b_cs a' = b_cs a /\ b_nl a' = b_nl a /\ b_inq a' = b_inq a /\ b_ls a' = b_ls a.

  Lemma eat_ok ph C L r fuel : forall lim a b, rel ph C a L b r -> b_nl a = false ->
    eat x fuel lim a <> Fail -> exists a' b', eat x fuel lim a = Live a' /\ rel ph C a' L b' r /\ kept a a'.
  Proof.
    induction fuel as [|fuel IH]; intros lim a b H Hnl Hf; cbn [eat] in *.
    { exists a, b. unfold kept. auto 6. }
    destruct (known x a) as [|[[i k w dd|i k inner w]|]|j] eqn:Ek.
    - exists a, b. unfold kept. auto 6.
    - destruct ((Z.of_nat i <=? lim) && Nat.leb i (length (b_v a)) && negb (Nat.eqb i 0) && allowed i w a) eqn:Ec.
      + dand. assert (Hi : (i <= length (b_v a))%nat) by (apply Nat.leb_le; auto).
        assert (Hi0 : i <> O) by (apply Nat.eqb_neq, negb_true_iff; auto).
        pose proof (bytes_ok _ _ _ _ _ _ _ _ _ _ H Hnl Ek Hi Hi0) as HR. clear H. rename HR into H.
        destruct (IH _ _ _ H Hnl Hf) as (a' & b' & E & H' & K). exists a', b'. split; [auto|]. split; [auto|]. unfold kept in *. cbn in K. auto.
      + exists a, b. unfold kept. auto 6.
    - exists a, b. unfold kept. auto 6.
    - destruct (b_try a) as [y|] eqn:Ey.
      + destruct (revert_ok _ _ _ _ _ _ y H Ey Hnl) as (b' & H').
        { intros g n Hp Hg. pose proof (known_ok x _ _ _ _ _ _ _ Hp (R_vis _ _ _ _ _ _ H)) as Hko.
          unfold known in Ek. rewrite Ek in Hko. cbn in Hko.
          destruct Hko as [[Hs Hko]|[Hs Hko]]; [eapply Cl_none; eauto|]. rewrite Hs. apply Cl_none. reflexivity. }
        exists (revert y a), b'. unfold kept. auto 6.
      + exfalso. eapply sure_none_ok; eauto.
    - destruct (region_of x j) as [g|] eqn:Eg; [|congruence].
      destruct (b_try a) as [y|] eqn:Ey; [congruence|]. destruct (b_inq a) as [q|] eqn:Eq; [congruence|].
      destruct ((Z.of_nat (length (g_open g)) <=? lim) && Nat.leb (length (g_open g)) (length (b_v a))
                && negb (Nat.eqb (length (g_open g)) 0) && allowed (length (g_open g)) (AIn j) a) eqn:Ec.
      + dand. assert (Hi : (length (g_open g) <= length (b_v a))%nat) by (apply Nat.leb_le; auto).
        assert (Hi0 : length (g_open g) <> O) by (apply Nat.eqb_neq, negb_true_iff; auto).
        pose proof (open_ok _ _ _ _ _ _ j g H Hnl Ek Eg Ey Eq Hi Hi0) as HR. clear H. rename HR into H.
        destruct (IH _ _ _ H Hnl Hf) as (a' & b' & E & H' & K). exists a', b'. split; [auto|]. split; [auto|]. unfold kept in *. cbn in K. auto.
      + exists a, b. unfold kept. auto 6.
  Qed.

  Lemma eat_to_ok ph C L r lim a b : rel ph C a L b r -> b_nl a = false ->
    eat_to x lim a <> Fail -> exists a' b', eat_to x lim a = Live a' /\ rel ph C a' L b' r /\ kept a a'.
  Proof. apply eat_ok. Qed.

  (** ** Actions *)
  Definition well (C : option loc) (o : out) (r : rt) : Prop :=
    exists a L b, o = Live a /\ rel Tok C a L b r.

  (** The flags of the line change. *)
  Lemma line_ok C a L b r c w (s : bool) : rel Tok C a L b r -> b_nl a = false ->
    (s = false -> b_ls a = false) ->
    rel Tok C (u_line c w s a) L b (set_line w c (if s then Some L else None) r).
  Proof.
    intros H Hnl Hs. destruct H. constructor; auto.
    unfold ls_ok in *. cbn. auto.
  Qed.

  Lemma or_ls C a L b r : rel Tok C a L b r -> b_nl a = false -> or_ptr (r_ls r) (r_ts r) = Some L.
  Proof.
    intros H Hnl. destruct H. rewrite R_ls0. destruct (b_ls a) eqn:E; cbn; auto.
  Qed.

  Lemma set_line_same r : set_line (r_wlc r) (r_lcc r) (r_ls r) r = r.
  Proof. destruct r; reflexivity. Qed.

  Lemma do_ls_ok C a L b r : rel Tok C a L b r -> b_nl a = false -> rel Tok C (k_ls a) L b (do_ls r).
  Proof.
    intros H Hnl. unfold do_ls, k_ls. rewrite (or_ls _ _ _ _ _ H Hnl). rewrite (R_wlc _ _ _ _ _ _ H), (R_lcc _ _ _ _ _ _ H).
    apply (line_ok C a L b r (b_lcc a) (b_wlc a) true H Hnl). discriminate.
  Qed.
  Lemma do_code_ok C a L b r : rel Tok C a L b r -> b_nl a = false -> rel Tok C (k_code a) L b (do_code r).
  Proof.
    intros H Hnl. unfold do_code, k_code. rewrite (or_ls _ _ _ _ _ H Hnl). rewrite (R_wlc _ _ _ _ _ _ H), (R_lcc _ _ _ _ _ _ H), (R_ls _ _ _ _ _ _ H).
    pose proof (line_ok C a L b r true (b_wlc a) (if b_lcc a then b_ls a else true) H Hnl) as HL.
    destruct (b_lcc a); apply HL; auto; discriminate.
  Qed.
  Lemma do_comment_ok C a L b r : rel Tok C a L b r -> b_nl a = false -> rel Tok C (k_comment a) L b (do_comment r).
  Proof.
    intros H Hnl. unfold do_comment, k_comment. rewrite (or_ls _ _ _ _ _ H Hnl). rewrite (R_lcc _ _ _ _ _ _ H).
    destruct (b_lcc a); auto. apply (line_ok C a L b r false true true H Hnl). discriminate.
  Qed.

  Lemma dequeue_ok C a L b r : rel Tok C a L b r -> b_nl a = false -> k_dequeue a <> Fail ->
    exists a', k_dequeue a = Live a' /\ rel Tok C a' L b (dequeue r) /\ b_inq a' = None /\ b_nl a' = false.
  Proof.
    intros H Hnl Hf. unfold k_dequeue in *. pose proof (R_inq _ _ _ _ _ _ H) as Hq. unfold inq_ok in Hq.
    destruct (b_inq a) as [q|] eqn:Eq.
    - destruct (q_cur q) eqn:Ec; [|congruence]. destruct Hq as (Hi & Hc & Hw & Hcur). destruct (Hcur eq_refl) as (Hque & Hs).
      eexists. split; [reflexivity|]. split; [|auto]. unfold dequeue. rewrite Hi. destruct H. constructor; auto.
      + cbn. destruct (q_s q); [auto|tauto].
      + unfold ls_ok in *. cbn. intros E1 _. rewrite E1 in Hs. destruct Hs as [_ Hs]. auto.
      + unfold inq_ok. cbn. reflexivity.
      + unfold acc_ok in *. cbn. destruct (b_try a) as [y|].
        * destruct R_acc0 as [E _]. congruence.
        * destruct R_acc0 as (pl & rest & Hp & Ho & HA & Ht). exists pl, rest. split; [auto|]. split; [auto|]. split; [auto|].
          unfold queue in *. cbn. rewrite Hi in Ht. rewrite Hque in Ht. exact Ht.
    - exists a. unfold dequeue. rewrite Hq. auto.
  Qed.

  Lemma kind_now_ok C a L b r k : rel Tok C a L b r -> kind_eqb (kind_now (mkNow (b_lcc a) (b_wlc a) false)) k = true ->
    RagelRun.kind r = kind_name k.
  Proof.
    intros H Hk. unfold RagelRun.kind. rewrite (R_lcc _ _ _ _ _ _ H), (R_wlc _ _ _ _ _ _ H). unfold kind_now in Hk. cbn in Hk.
    destruct (b_lcc a), (b_wlc a), k; try discriminate; reflexivity.
  Qed.

  Lemma at_line_end_ok C a L b r inner target : rel Tok C a L b r -> b_nl a = false -> b_try a = None ->
    (inner = false -> b_inq a = None) ->
    at_line_end x inner target a <> Fail -> exists a' b' kd,
    at_line_end x inner target a = Live a' /\ b' = b + target /\ b < b' /\ RagelRun.kind r = kind_name kd
    /\ (kd = Blank -> r_lcc r || r_wlc r = false) /\ (kd <> Blank -> r_lcc r || r_wlc r = true)
    /\ (if (match kd with Blank => inner | _ => true end) then r_ls r = Some L else r_ts r = Some b)
    /\ forall out qu, (if r_inq r then out = r_out r /\ qu = mkEvent lang (kind_name kd) L b' :: r_queue r
                       else out = mkEvent lang (kind_name kd) (match kd with Blank => if inner then L else b | _ => L end) b' :: r_out r
                            /\ qu = r_queue r) ->
        rel Tok C a' b' b' (set_line false false (if inner then Some b' else None) (set_out out (set_queue qu r))).
  Proof.
    intros H Hnl Hy Hq Hf. unfold at_line_end in *.
    destruct (known x a) as [|[[? ? ? ?|n k i w]|]|] eqn:Ek; try congruence.
    2:{ exfalso. eapply sure_none_ok; eauto. }
    destruct (_ && _) eqn:Ec in Hf; [|congruence]. rewrite Ec. dand.
    repeat match goal with
    | H : eqb _ _ = true |- _ => apply eqb_prop in H
    | H : (_ =? _) = true |- _ => apply Z.eqb_eq in H
    | H : Nat.leb _ _ = true |- _ => apply Nat.leb_le in H
    | H : negb (Nat.eqb _ _) = true |- _ => apply negb_true_iff, Nat.eqb_neq in H
    end. subst i target.
    set (kd := kind_now (mark k false (b_now a))) in *.
    eexists _, (b + Z.of_nat n), kd. split; [reflexivity|]. split; [reflexivity|]. split; [lia|].
    match goal with H : kind_eqb _ _ = true |- _ => rename H into Hkd end.
    split; [eapply kind_now_ok; eauto|].
    assert (Hfl : (kd = Blank -> r_lcc r || r_wlc r = false) /\ (kd <> Blank -> r_lcc r || r_wlc r = true)).
    { rewrite (R_lcc _ _ _ _ _ _ H), (R_wlc _ _ _ _ _ _ H). unfold kind_now in Hkd at 1. cbn [fst snd] in Hkd.
      destruct (b_lcc a), (b_wlc a), kd; cbn in Hkd; try discriminate; split; intros; try reflexivity; try discriminate; congruence. }
    destruct Hfl as [Hfl1 Hfl2]. split; [auto|]. split; [auto|].
    assert (Hls : if (match kd with Blank => inner | _ => true end) then r_ls r = Some L else r_ts r = Some b).
    { match goal with H : match kd with Blank => _ | _ => _ end = true |- _ => rename H into Hl end.
      assert (b_ls a = true -> r_ls r = Some L) by (intros E; rewrite (R_ls _ _ _ _ _ _ H), E; reflexivity).
      destruct kd, inner; auto. destruct (b_ts a) as [t|] eqn:Et; [|discriminate]. destruct t; try discriminate.
      rewrite (R_ts _ _ _ _ _ _ H _ Et). f_equal. lia. }
    split; [exact Hls|].
    pose proof (R_vis _ _ _ _ _ _ H) as Hv. pose proof (R_L _ _ _ _ _ _ H) as HL. pose proof (R_len _ _ _ _ _ _ H) as Hlen.
    pose proof (vis_len _ _ b ltac:(lia) Hlen Hv) as Hvl.
    assert (Hsk : skipn n (at_ b) = at_ (b + Z.of_nat n)) by (apply at_skip; lia).
    pose proof (R_acc _ _ _ _ _ _ H) as Hacc. unfold acc_ok in Hacc. rewrite Hy in Hacc.
    destruct Hacc as (pl & rest & Hp & Ho & HA & Ht).
    pose proof (known_ok x _ _ _ _ _ _ _ Hp Hv) as Hko. unfold known in Ek. rewrite Ek in Hko.
    destruct Hko as (Hs & pl' & Hpc & Hp' & Hd1 & Hd2).
    destruct (Acc_ends _ _ _ _ _ _ _ _ _ _ _ _ Hs Hpc HA) as (rest' & Hr & HA').
    fold kd in Hr. rewrite Hsk in HA'. specialize (Hp' (fresh (starts n (b_v a)))). rewrite Hsk in Hp'.
    assert (Hst : starts n (b_v a) = starts n (at_ b)) by (eapply vis_starts; eauto).
    intros out qu Hout. destruct H. constructor; auto; cbn.
    - lia.
    - lia.
    - rewrite <- Hsk. apply vis_skip; auto.
    - apply minus_ok. auto.
    - apply less_ok. auto.
    - apply less_ok. auto.
    - unfold ls_ok. cbn. destruct inner; cbn; congruence.
    - unfold inq_ok in *. cbn. destruct (b_inq a) as [q|]; cbn; [|auto]. destruct R_inq0 as (Hi & Hc & Hw & _).
      repeat split; auto; discriminate.
    - rewrite Hst. apply starts_step; [lia|auto].
    - unfold acc_ok. cbn. exists pl', rest'. split; [auto|]. split.
      { intros v o Hvo. cbn in Hvo. destruct (b_at a) as [k0|j0].
        - destruct w; [|contradiction]. destruct Hp' as [-> _]. destruct Hp as [-> _]. apply (Ho _ _ Hvo).
        - destruct w as [k1|j1]; [discriminate|]. destruct (d_off (b_dep a)) as [[v' o']|] eqn:Eo; [|discriminate].
          cbn in Hvo. injection Hvo as <- <-. cbn. rewrite (Ho _ _ Eo). lia. }
      split; [rewrite Hst; auto|]. rewrite Ht, Hr. unfold queue. cbn.
      destruct (r_inq r) eqn:Ei.
      + destruct Hout as [-> ->]. cbn [rev]. rewrite <- app_assoc. cbn [app].
        assert (inner = true) as ->.
        { destruct inner; auto. unfold inq_ok in R_inq0. rewrite (Hq eq_refl) in R_inq0. congruence. }
        destruct kd; reflexivity.
      + destruct Hout as [-> ->]. cbn [rev app]. rewrite <- app_assoc. reflexivity.
  Qed.

  Lemma set_self_queue r : set_queue (r_queue r) r = r.
  Proof. destruct r; reflexivity. Qed.
  Lemma set_self_out r : set_out (r_out r) r = r.
  Proof. destruct r; reflexivity. Qed.

  Lemma k_nl_ok C a L b r l : rel Tok C a L b r -> b_nl a = false -> k_nl x lang l a <> Fail ->
    exists r', std_newline l r = Ok r' /\ well C (k_nl x lang l a) r'.
  Proof.
    intros H Hnl Hf. unfold k_nl in *.
    assert (Hd : k_dequeue a <> Fail) by (intros E; rewrite E in Hf; apply Hf; reflexivity).
    destruct (dequeue_ok _ _ _ _ _ H Hnl Hd) as (a1 & E1 & H1 & Hq1 & Hn1). rewrite E1 in *. cbn [andthen] in *.
    unfold std_newline. set (r1 := dequeue r) in *. clearbody r1. clear H r Hd E1 Hnl a.
    destruct (b_te a1) as [t|] eqn:Et; [|congruence].
    assert (Hd : eat_to x t a1 <> Fail) by (intros E; rewrite E in Hf; apply Hf; reflexivity).
    destruct (eat_to_ok _ _ _ _ _ _ _ H1 Hn1 Hd) as (a2 & b2 & E2 & H2 & K1 & K2 & K3 & K4). rewrite E2 in *. cbn [andthen] in *.
    destruct (b_te a2) as [t2|] eqn:Et2; [|congruence]. destruct (b_try a2) eqn:Ey2; [congruence|].
    destruct (String.eqb l lang) eqn:El; [|congruence]. apply String.eqb_eq in El. subst l.
    destruct (at_line_end_ok C a2 L b2 r1 false t2 H2 ltac:(congruence) Ey2 ltac:(congruence) Hf)
      as (a3 & b3 & kd & E3 & Hb3 & Hlt & Hk & Hf1 & Hf2 & Hls & Hrel).
    rewrite E3. pose proof (R_te _ _ _ _ _ _ H2 _ Et2) as Hte. pose proof (R_L _ _ _ _ _ _ H2) as HL.
    pose proof (R_inq _ _ _ _ _ _ H2) as Hiq. unfold inq_ok in Hiq. rewrite K3, Hq1 in Hiq. rewrite Hiq in Hrel.
    rewrite <- Hb3 in Hte. rewrite Hte.
    assert (Hgt : ptr_gt (Some b3) (r_ls r1) = true).
    { rewrite (R_ls _ _ _ _ _ _ H2). destruct (b_ls a2); cbn; auto. apply Z.ltb_lt. lia. }
    rewrite Hgt. unfold callback.
    assert (Hst : (if r_lcc r1 || r_wlc r1 then r_ls r1 else r_ts r1) = Some (match kd with Blank => b2 | _ => L end)).
    { destruct kd; [rewrite (Hf1 eq_refl); exact Hls|rewrite (Hf2 ltac:(discriminate)); exact Hls..]. }
    rewrite Hst. cbn [cint bind]. rewrite Hk.
    specialize (Hrel _ (r_queue r1) (conj eq_refl eq_refl)). rewrite set_self_queue in Hrel.
    eexists. split; [reflexivity|]. exists a3, b3, b3. split; [reflexivity|]. exact Hrel.
  Qed.

  Lemma k_inl_ok C a L b r l : rel Tok C a L b r -> b_nl a = false -> k_inl x lang l a <> Fail ->
    exists r', std_internal_newline l r = Ok r' /\ well C (k_inl x lang l a) r'.
  Proof.
    intros H Hnl Hf. unfold k_inl in *.
    destruct (b_p a) as [p|] eqn:Ep; [|congruence].
    assert (Hd : eat_to x p a <> Fail) by (intros E; rewrite E in Hf; apply Hf; reflexivity).
    destruct (eat_to_ok _ _ _ _ _ _ _ H Hnl Hd) as (a2 & b2 & E2 & H2 & K1 & K2 & K3 & K4). rewrite E2 in *. cbn [andthen] in *.
    destruct (b_p a2) as [t2|] eqn:Et2; [|congruence]. destruct (b_try a2) eqn:Ey2; [congruence|].
    destruct (String.eqb l lang) eqn:El; [|congruence]. apply String.eqb_eq in El. subst l.
    destruct (at_line_end_ok C a2 L b2 r true t2 H2 ltac:(congruence) Ey2 ltac:(congruence) Hf)
      as (a3 & b3 & kd & E3 & Hb3 & Hlt & Hk & Hf1 & Hf2 & Hls & Hrel).
    rewrite E3. pose proof (R_p _ _ _ _ _ _ H2 _ Et2) as Hp. pose proof (R_L _ _ _ _ _ _ H2) as HL.
    assert (Hls' : r_ls r = Some L) by (destruct kd; exact Hls).
    unfold std_internal_newline. rewrite Hls'. cbn [ptr_gt].
    assert (Hgt : (L <? r_p r) = true) by (apply Z.ltb_lt; lia). rewrite Hgt.
    rewrite <- Hb3 in Hp.
    destruct (r_inq r); unfold enqueue, callback; cbn [cint bind]; (eexists; split; [reflexivity|];
      match goal with |- context [Some (r_p ?q)] => change (r_p q) with (r_p r) end; exists a3, b3, b3; split; [reflexivity|]).
    - specialize (Hrel _ _ (conj eq_refl eq_refl)). rewrite <- Hk, <- Hp in Hrel.
      rewrite Hp in *. exact Hrel.
    - specialize (Hrel _ _ (conj eq_refl eq_refl)).
      replace (match kd with Blank => L | _ => L end) with L in Hrel by (destruct kd; reflexivity).
      rewrite <- Hk, <- Hp in Hrel. rewrite Hp in *. exact Hrel.
  Qed.

  Lemma andthen_fail o f : andthen o f <> Fail -> o <> Fail.
  Proof. intros H E. apply H. rewrite E. reflexivity. Qed.

  Lemma k_macro_ok C a L b r mc r' : rel Tok C a L b r -> k_macro x lang mc a <> Fail ->
    exec_macro text mc r = Ok r' -> well C (k_macro x lang mc a) r'.
  Proof.
    intros H Hf Hr. unfold k_macro in *. destruct (b_nl a) eqn:Hnl; [congruence|].
    destruct mc; try congruence; cbn [exec_macro] in Hr.
    - injection Hr as <-. destruct (dequeue_ok _ _ _ _ _ H Hnl (andthen_fail _ _ Hf)) as (a1 & E1 & H1 & _ & Hn1).
      rewrite E1. eexists _, L, b. split; [reflexivity|]. apply do_ls_ok; auto.
    - injection Hr as <-. destruct (dequeue_ok _ _ _ _ _ H Hnl (andthen_fail _ _ Hf)) as (a1 & E1 & H1 & _ & Hn1).
      rewrite E1. eexists _, L, b. split; [reflexivity|]. apply do_code_ok; auto.
    - injection Hr as <-. destruct (dequeue_ok _ _ _ _ _ H Hnl (andthen_fail _ _ Hf)) as (a1 & E1 & H1 & _ & Hn1).
      rewrite E1. eexists _, L, b. split; [reflexivity|]. apply do_comment_ok; auto.
    - destruct (k_inl_ok _ _ _ _ _ _ H Hnl Hf) as (r1 & E & W). congruence.
    - destruct (k_nl_ok _ _ _ _ _ _ H Hnl Hf) as (r1 & E & W). congruence.
  Qed.

  Lemma k_switch_ok C a L b r l e r' : rel Tok C a L b r -> r_ent r = e -> k_switch x lang l e a <> Fail ->
    switch text l r = Ok r' -> well C (k_switch x lang l e a) r'.
  Proof.
    intros H He. induction l as [|[f mc] l IH]; cbn [k_switch switch]; intros Hf Hr.
    - injection Hr as <-. exists a, L, b. auto.
    - rewrite He in Hr. destruct (e =? f); [eapply k_macro_ok; eauto|auto].
  Qed.

  Lemma var_get_set l v n w : var_get (var_set l v n) w = if w =? v then n else var_get l w.
  Proof.
    induction l as [|[u k] l IH]; cbn [var_set var_get].
    - destruct (Z.eqb_spec w v); reflexivity.
    - destruct (Z.eqb_spec v u) as [->|Hvu]; cbn [var_get].
      + destruct (Z.eqb_spec w u); reflexivity.
      + rewrite IH. destruct (Z.eqb_spec w u), (Z.eqb_spec w v); try congruence; auto.
  Qed.

  Lemma u_p_ok ph C a L b r i p : rel ph C a L b r -> ph <> Sep -> p = b + i -> rel ph C (u_p (Some i) a) L b (set_p p r).
  Proof.
    intros H Hph ->. destruct H. constructor; auto; cbn.
    - intros j [= <-]. reflexivity.
    - destruct ph; cbn in *; auto. congruence.
  Qed.

  Lemma u_te_ok ph C a L b r i p : rel ph C a L b r -> p = b + i -> rel ph C (u_te (Some i) a) L b (set_te (Some p) r).
  Proof.
    intros H ->. destruct H. constructor; auto; cbn.
    - intros j [= <-]. reflexivity.
    - unfold acc_ok in *. cbn. destruct (b_try a) as [y|]; cbn; [|exact R_acc0].
      destruct R_acc0 as (Hq & g & n & b0 & rest & Hat & Hg & Hp & Ho & HL & Hb0 & Hv & Hbef & Hop & HA & HC & Ht & Hte & Hts).
      split; [auto|]. exists g, n, b0, rest. repeat (split; [assumption|]). split; [discriminate|auto].
  Qed.

  Lemma k_stmt_ok C a L b r s r' j : rel Tok C a L b r -> k_stmt x lang s a <> Fail ->
    exec_stmt m text s r = Ok (r', j) -> j = false /\ well C (k_stmt x lang s a) r'.
  Proof.
    intros H Hf Hr. unfold k_stmt in *. destruct (b_nl a) eqn:Hnl; [congruence|].
    destruct s; try congruence; cbn [exec_stmt] in Hr.
    - injection Hr as <- <-. split; [auto|]. eexists _, L, b. split; [reflexivity|]. destruct H. constructor; auto. cbn. congruence.
    - destruct (b_ent a) as [e|] eqn:Ee; [|congruence].
      destruct (switch text _ r) as [r1| |] eqn:Es; cbn [bind] in Hr; try discriminate. injection Hr as <- <-.
      split; [auto|]. eapply k_switch_ok; eauto. apply (R_ent _ _ _ _ _ _ H). auto.
    - injection Hr as <- <-. split; [auto|]. eexists _, L, b. split; [reflexivity|]. apply do_code_ok; auto.
    - injection Hr as <- <-. split; [auto|]. eexists _, L, b. split; [reflexivity|]. apply do_comment_ok; auto.
    - injection Hr as <- <-. split; [auto|]. eexists _, L, b. split; [reflexivity|]. apply do_ls_ok; auto.
    - destruct (b_inq a) eqn:Eq; [congruence|]. destruct (b_try a) eqn:Ey; [congruence|].
      injection Hr as <- <-. split; [auto|]. eexists _, L, b. split; [reflexivity|]. destruct H.
      unfold inq_ok in R_inq0. rewrite Eq in R_inq0. unfold acc_ok in R_acc0. rewrite Ey in R_acc0. constructor; auto; cbn.
      + unfold inq_ok. cbn. split; [auto|]. split; [auto|]. split; [auto|]. intros _. split; [auto|].
        rewrite R_ls0. destruct (b_ls a) eqn:El; auto.
      + unfold acc_ok. cbn. rewrite Ey. destruct R_acc0 as (pl & rest & Hp & Ho & HA & Ht).
        exists pl, rest. split; [auto|]. split; [auto|]. split; [auto|]. rewrite Ht. unfold queue. rewrite R_inq0. reflexivity.
    - destruct (b_try a) eqn:Ey; [congruence|]. injection Hr as <- <-. split; [auto|]. eexists _, L, b. split; [reflexivity|].
      destruct H. unfold acc_ok in R_acc0. rewrite Ey in R_acc0. destruct R_acc0 as (pl & rest & Hp & Ho & HA & Ht).
      destruct (r_inq r) eqn:Ei.
      + constructor; auto; cbn.
        * unfold inq_ok. cbn. reflexivity.
        * unfold acc_ok. cbn. rewrite Ey. exists pl, rest. split; [auto|]. split; [auto|]. split; [auto|].
          rewrite Ht. unfold queue. cbn. rewrite Ei. rewrite rev_app_distr, app_assoc. reflexivity.
      + constructor; auto; cbn.
        unfold acc_ok. cbn. rewrite Ey. exists pl, rest. auto.
    - destruct (b_at a) as [k|] eqn:Ea; [|congruence]. injection Hr as <- <-. split; [auto|]. eexists _, L, b. split; [reflexivity|].
      destruct H. constructor; auto. unfold acc_ok in *. cbn. destruct (b_try a) as [y|].
      + destruct R_acc0 as (Hq & g & n0 & b0 & rest & Hat & _). congruence.
      + destruct R_acc0 as (pl & rest & Hp & Ho & HA & Ht). exists pl, rest. split; [auto|].
        split; [|auto]. intros w o Hw. cbn in *. injection Hw as <- <-. rewrite var_get_set, Z.eqb_refl.
        rewrite Ea in Hp. destruct Hp as [-> _]. reflexivity.
    - destruct (d_off (b_dep a)) as [[u k]|] eqn:Ed; [|congruence]. destruct (u =? v) eqn:Eu; [|congruence].
      apply Z.eqb_eq in Eu. subst u. unfold ckint in Hr. destruct (_ && _) in Hr; [|discriminate].
      cbn [bind] in Hr. injection Hr as <- <-. split; [auto|]. eexists _, L, b. split; [reflexivity|].
      destruct H. constructor; auto. unfold acc_ok in *. cbn. destruct (b_try a) as [y|].
      + destruct R_acc0 as (Hq & g & n0 & b0 & rest & Hat & Hg & Hp & Ho & HL & Hb0 & Hv & Hbef & Hop & HA & HC & Ht & Hte & Hts).
        split; [auto|]. exists g, n0, b0, rest. split; [auto|]. split; [auto|]. split; [auto|].
        split. { intros w o Hw. cbn in *. injection Hw as <- <-. rewrite var_get_set, Z.eqb_refl. rewrite (Ho _ _ Ed). cbn. lia. }
        repeat (split; [assumption|]). assumption.
      + destruct R_acc0 as (pl & rest & Hp & Ho & HA & Ht). exists pl, rest. split; [auto|].
        split; [|auto]. intros w o Hw. cbn in *. injection Hw as <- <-. rewrite var_get_set, Z.eqb_refl. rewrite (Ho _ _ Ed). lia.
    - destruct (b_p a) as [p|] eqn:Ep; [|congruence]. injection Hr as <- <-. split; [auto|]. eexists _, L, b. split; [reflexivity|].
      apply u_p_ok; auto; [discriminate|]. rewrite (R_p _ _ _ _ _ _ H _ Ep). lia.
  Qed.

  Lemma k_body_ok C l : forall a L b r r' j, rel Tok C a L b r -> k_body x lang l a <> Fail ->
    exec_body m text l r = Ok (r', j) -> j = false /\ well C (k_body x lang l a) r'.
  Proof.
    induction l as [|s l IH]; intros a L b r r' j H Hf Hr; cbn [k_body exec_body] in *.
    - injection Hr as <- <-. split; [auto|]. exists a, L, b. auto.
    - destruct (exec_stmt m text s r) as [[r1 j1]| |] eqn:Es; cbn [bind] in Hr; try discriminate.
      destruct (k_stmt_ok _ _ _ _ _ _ _ _ H (andthen_fail _ _ Hf) Es) as [-> (a1 & L1 & b1 & E1 & H1)].
      rewrite E1 in *. cbn [andthen] in *. eapply IH; eauto.
  Qed.

  Lemma k_part_ok C d i a L b r r' j : rel Tok C a L b r -> k_part x lang d i a <> Fail ->
    exec_part m text d i r = Ok (r', j) -> j = false /\ well C (k_part x lang d i a) r'.
  Proof.
    intros H Hf Hr. unfold k_part, exec_part in *. destruct (nth_error (df_parts d) i) as [[ac|]|]; [| |congruence].
    - eapply k_body_ok; eauto.
    - injection Hr as <- <-. split; [auto|]. exists a, L, b. auto.
  Qed.

  Lemma k_instr_ok C d i a L b r r' j : rel Tok C a L b r -> k_instr x lang d i a <> Fail ->
    exec_instr m text d i r = Ok (r', j) -> j = false /\ well C (k_instr x lang d i a) r'.
  Proof.
    intros H Hf Hr. unfold k_instr in *. destruct (b_nl a) eqn:Hnl; [congruence|].
    destruct i as [ac| |i|i|i|i|]; cbn [exec_instr] in Hr.
    - eapply k_body_ok; eauto.
    - destruct (b_p a) as [p|] eqn:Ep; [|congruence]. injection Hr as <- <-. split; [auto|].
      eexists _, L, b. split; [reflexivity|]. apply u_te_ok; auto. rewrite (R_p _ _ _ _ _ _ H _ Ep). lia.
    - injection Hr as <- <-. split; [auto|]. eexists _, L, b. split; [reflexivity|]. destruct H. constructor; auto.
    - destruct (b_p a) as [p|] eqn:Ep; [|congruence].
      pose proof (R_p _ _ _ _ _ _ H _ Ep) as Hp. refine (k_part_ok _ _ _ _ L b _ _ _ _ Hf Hr).
      apply u_te_ok; [exact H|lia].
    - destruct (b_p a) as [p|] eqn:Ep; [|congruence].
      pose proof (R_p _ _ _ _ _ _ H _ Ep) as Hp. refine (k_part_ok _ _ _ _ L b _ _ _ _ Hf Hr).
      apply u_p_ok; [|discriminate|lia]. apply u_te_ok; [exact H|exact Hp].
    - destruct (b_te a) as [t|] eqn:Et; [|congruence]. rewrite (R_te _ _ _ _ _ _ H _ Et) in Hr. cbn [cint bind] in Hr.
      refine (k_part_ok _ _ _ _ L b _ _ _ _ Hf Hr). apply u_p_ok; [exact H|discriminate|lia].
    - destruct (b_act a) as [i|] eqn:Ei; [|congruence]. destruct (b_te a) as [t|] eqn:Et; [|congruence].
      rewrite (R_act _ _ _ _ _ _ H _ Ei) in Hr. rewrite (R_te _ _ _ _ _ _ H _ Et) in Hr. cbn [cint bind] in Hr.
      refine (k_part_ok _ _ _ _ L b _ _ _ _ Hf Hr). apply u_p_ok; [exact H|discriminate|lia].
  Qed.

  Lemma k_instrs_ok C d l : forall a L b r r' j, rel Tok C a L b r -> k_instrs x lang d l a <> Fail ->
    exec_instrs m text d l r = Ok (r', j) -> j = false /\ well C (k_instrs x lang d l a) r'.
  Proof.
    induction l as [|s l IH]; intros a L b r r' j H Hf Hr; cbn [k_instrs exec_instrs] in *.
    - injection Hr as <- <-. split; [auto|]. exists a, L, b. auto.
    - destruct (exec_instr m text d s r) as [[r1 j1]| |] eqn:Es; cbn [bind] in Hr; try discriminate.
      destruct (k_instr_ok _ _ _ _ _ _ _ _ _ H (andthen_fail _ _ Hf) Es) as [-> (a1 & L1 & b1 & E1 & H1)].
      rewrite E1 in *. cbn [andthen] in *. eapply IH; eauto.
  Qed.

  (** No pointer is NULL where an offset is computed from it. *)
  Definition no_null {A} (r : res A) : Prop := r <> Ub NullDeref.

  Lemma no_null_bind {A B} (r : res A) (f : A -> res B) : no_null r -> (forall y, r = Ok y -> no_null (f y)) -> no_null (bind r f).
  Proof. unfold no_null. intros H Hf. destruct r; cbn; auto; congruence. Qed.
  Lemma no_null_ok {A} (y : A) : no_null (Ok y).
  Proof. discriminate. Qed.

  Lemma k_switch_null C a L b r l e : rel Tok C a L b r -> r_ent r = e -> k_switch x lang l e a <> Fail ->
    no_null (switch text l r).
  Proof.
    intros H He. induction l as [|[f mc] l IH]; cbn [k_switch switch]; intros Hf; [apply no_null_ok|].
    rewrite He. destruct (e =? f); [|auto]. unfold k_macro in Hf. destruct (b_nl a) eqn:Hnl; [congruence|].
    destruct mc; try congruence; cbn [exec_macro]; try apply no_null_ok.
    - destruct (k_inl_ok _ _ _ _ _ _ H Hnl Hf) as (r1 & E & W). rewrite E. apply no_null_ok.
    - destruct (k_nl_ok _ _ _ _ _ _ H Hnl Hf) as (r1 & E & W). rewrite E. apply no_null_ok.
  Qed.

  Lemma k_stmt_null C a L b r s : rel Tok C a L b r -> k_stmt x lang s a <> Fail -> no_null (exec_stmt m text s r).
  Proof.
    intros H Hf. unfold k_stmt in *. destruct (b_nl a) eqn:Hnl; [congruence|].
    destruct s; try congruence; cbn [exec_stmt]; try apply no_null_ok.
    - destruct (b_ent a) as [e|] eqn:Ee; [|congruence]. apply no_null_bind; [|intros; apply no_null_ok].
      exact (k_switch_null C a L b r _ e H (R_ent _ _ _ _ _ _ H _ Ee) Hf).
    - unfold ckint. destruct (_ && _); discriminate.
  Qed.

  Lemma k_body_null C l : forall a L b r, rel Tok C a L b r -> k_body x lang l a <> Fail -> no_null (exec_body m text l r).
  Proof.
    induction l as [|s l IH]; intros a L b r H Hf; cbn [k_body exec_body] in *; [apply no_null_ok|].
    apply no_null_bind; [eapply k_stmt_null; eauto; eapply andthen_fail; eauto|]. intros [r1 j1] Es.
    destruct (k_stmt_ok _ _ _ _ _ _ _ _ H (andthen_fail _ _ Hf) Es) as [-> (a1 & L1 & b1 & E1 & H1)].
    rewrite E1 in *. cbn [andthen] in *. eapply IH; eauto.
  Qed.

  Lemma k_part_null C d i a L b r : rel Tok C a L b r -> k_part x lang d i a <> Fail -> no_null (exec_part m text d i r).
  Proof.
    intros H Hf. unfold k_part, exec_part in *. destruct (nth_error (df_parts d) i) as [[ac|]|]; [|apply no_null_ok|congruence].
    eapply k_body_null; eauto.
  Qed.

  Lemma k_instr_null C d i a L b r : rel Tok C a L b r -> k_instr x lang d i a <> Fail -> no_null (exec_instr m text d i r).
  Proof.
    intros H Hf. unfold k_instr in *. destruct (b_nl a) eqn:Hnl; [congruence|].
    destruct i as [ac| |i|i|i|i|]; cbn [exec_instr]; try apply no_null_ok.
    - eapply k_body_null; eauto.
    - destruct (b_p a) as [p|] eqn:Ep; [|congruence].
      pose proof (R_p _ _ _ _ _ _ H _ Ep) as Hp. refine (k_part_null C _ _ _ L b _ _ Hf).
      apply u_te_ok; [exact H|lia].
    - destruct (b_p a) as [p|] eqn:Ep; [|congruence].
      pose proof (R_p _ _ _ _ _ _ H _ Ep) as Hp. refine (k_part_null C _ _ _ L b _ _ Hf).
      apply u_p_ok; [|discriminate|lia]. apply u_te_ok; [exact H|exact Hp].
    - destruct (b_te a) as [t|] eqn:Et; [|congruence]. rewrite (R_te _ _ _ _ _ _ H _ Et). cbn [cint bind].
      refine (k_part_null C _ _ _ L b _ _ Hf). apply u_p_ok; [exact H|discriminate|lia].
    - destruct (b_act a) as [i|] eqn:Ei; [|congruence]. destruct (b_te a) as [t|] eqn:Et; [|congruence].
      rewrite (R_act _ _ _ _ _ _ H _ Ei). rewrite (R_te _ _ _ _ _ _ H _ Et). cbn [cint bind].
      refine (k_part_null C _ _ _ L b _ _ Hf). apply u_p_ok; [exact H|discriminate|lia].
  Qed.

  Lemma k_instrs_null C d l : forall a L b r, rel Tok C a L b r -> k_instrs x lang d l a <> Fail -> no_null (exec_instrs m text d l r).
  Proof.
    induction l as [|s l IH]; intros a L b r H Hf; cbn [k_instrs exec_instrs] in *; [apply no_null_ok|].
    apply no_null_bind; [eapply k_instr_null; eauto; eapply andthen_fail; eauto|]. intros [r1 j1] Es.
    destruct (k_instr_ok _ _ _ _ _ _ _ _ _ H (andthen_fail _ _ Hf) Es) as [-> (a1 & L1 & b1 & E1 & H1)].
    rewrite E1 in *. cbn [andthen] in *. eapply IH; eauto.
  Qed.

  (** ** Steps *)
  Variable d : dfa.
  Hypothesis Hd : nth_error (m_dfas m) 0 = Some d.
  Hypothesis Hscan : df_scan d = true.
  Hypothesis Hlang : m_lang m = lang.

  Definition inv (a : ast) (r : rt) : Prop := b_nl a = false /\ exists L b,
    rel (if Pos.eqb (b_cs a) (df_start d) then Sep else Tok) (Some (O, b_cs a)) a L b r.

  Lemma to_any ph C a L b r : rel ph C a L b r -> rel Any C a L b r.
  Proof.
    intros H. destruct H. constructor; auto; [exact I|]. unfold inq_ok in *. destruct (b_inq a) as [q|]; auto.
    destruct R_inq0 as (Hi & Hc & Hw & Hcur). do 3 (split; [auto|]). intros E. destruct (Hcur E) as [E1 E2]. split; auto.
    destruct (q_s q); auto. destruct E2. split; [auto|discriminate].
  Qed.

  Lemma forget_ok ph C a L b r : rel ph C a L b r -> rel ph C (forget a) L b r.
  Proof.
    intros H. unfold forget. destruct (b_p a) as [[| |]|]; auto. destruct (b_at a) eqn:Ea; auto.
    destruct H. constructor; auto; cbn.
    - exists (at_ b). split; [reflexivity|exact I].
    - unfold acc_ok in *. cbn. destruct (b_try a) as [y|].
      + destruct R_acc0 as (Hq & g & n0 & b0 & rest & Hat & _). congruence.
      + destruct R_acc0 as (pl & rest & Hp & Ho & HA & Ht). exists pl, rest. rewrite Ea in Hp.
        split; [exact Hp|]. split; [discriminate|]. auto.
  Qed.

  Lemma unsure_ok ph C a L b r : rel ph C a L b r -> rel ph C (unsure a) L b r.
  Proof.
    intros H. unfold unsure. destruct (b_at a) as [k|j] eqn:Ea; auto. destruct (nil_b (b_v a)); auto.
    assert (Hz : forall pl, place_ok x (AIn j) (d_z (b_dep a)) (b_now a) pl (at_ b) -> place_ok x (AIn j) None (b_now a) pl (at_ b)).
    { intros pl (g & n & Hg & -> & Hn & _). exists g, n. repeat split; auto. discriminate. }
    destruct H. constructor; auto. unfold acc_ok in *. cbn. destruct (b_try a) as [y|].
    - destruct R_acc0 as (Hq & g & n0 & b0 & rest & Hat & Hg & Hp & Ho & HL & Hb0 & Hv & Hbef & Hop & HA & HC & Ht & Hte & Hts).
      assert (y_j y = j) as Ej by congruence. rewrite Ej in *.
      split; [auto|]. exists g, n0, b0, rest. split; [auto|]. split; [auto|]. split; [exact (Hz _ Hp)|].
      repeat (split; [assumption|]). assumption.
    - destruct R_acc0 as (pl & rest & Hp & Ho & HA & Ht). exists pl, rest. rewrite Ea in *. auto.
  Qed.

  Lemma forget_kept a : kept a (forget a).
  Proof. unfold forget. destruct (b_p a) as [[| |]|]; try (unfold kept; auto). destruct (b_at a); unfold kept; auto. Qed.
  Lemma unsure_kept a : kept a (unsure a).
  Proof. unfold unsure. destruct (b_at a); try (unfold kept; auto). destruct (nil_b _); unfold kept; auto. Qed.

  Lemma start_clear C a L b r : rel Tok C a L b r ->
    rel Any C (u_act None (u_ts None (u_te None a))) L b (set_actid None (set_ts None r)).
  Proof.
    intros H. apply to_any in H. destruct H. constructor; auto; cbn; try discriminate.
    - unfold inq_ok in *. cbn. destruct (b_inq a) as [q|]; auto.
      destruct R_inq0 as (Hi & Hc & Hw & Hcur). do 3 (split; [auto|]). intros E. destruct (Hcur E) as [E1 E2]. split; auto.
      destruct (q_s q); auto. destruct E2. split; [auto|discriminate].
    - unfold acc_ok in *. cbn. destruct (b_try a) as [y|]; cbn; [|auto].
      destruct R_acc0 as (Hq & g & n0 & b0 & rest & Hat & Hg & Hp & Ho & HL & Hb0 & Hv & Hbef & Hop & HA & HC & Ht & Hte & Hts).
      split; [auto|]. exists g, n0, b0, rest. repeat (split; [assumption|]). split; discriminate.
  Qed.

  Lemma settle_ok to a L b r o : rel Tok (Some (O, to)) a L b r -> settle x d to a <> Fail ->
    again m r = Ok o -> exists a' r', o = Go r' /\ settle x d to a = Live a' /\ inv a' r'.
  Proof.
    intros H Hf Ho. unfold again in Ho. rewrite (R_cs _ _ _ _ _ _ H) in Ho. unfold dfa_of in Ho. rewrite Hd in Ho.
    cbn [bind] in Ho. unfold is_scan_start in Ho. rewrite Hscan in Ho. cbn [andb] in Ho.
    unfold settle in *. cbv zeta in *. destruct (b_p a) as [p|] eqn:Ep; [|congruence].
    pose proof (R_p _ _ _ _ _ _ H _ Ep) as Hp.
    assert (H0 : forall ph, ph <> Sep -> rel ph (Some (O, to)) a L b r -> rel ph (Some (O, to)) (u_p (Some (p + 1)) (u_cs to a)) L b (set_p (r_p r + 1) r)).
    { intros ph Hph H1. apply u_p_ok; auto; [|lia]. destruct H1. constructor; auto. }
    cbn [b_nl u_p u_cs u_pos] in *. destruct (p + 1 <? 0); [congruence|].
    destruct (Pos.eqb to (df_start d)) eqn:Est.
    - injection Ho as <-. destruct (b_nl a) eqn:Hnl.
      + cbn [b_inq b_try u_p u_pos u_cs] in *. destruct (b_inq a) eqn:Eq; [congruence|]. destruct (b_try a) eqn:Ey; [congruence|].
        destruct (p + 1 =? 0) eqn:E0; [|congruence]. apply Z.eqb_eq in E0.
        eexists _, _. split; [reflexivity|]. split; [reflexivity|]. split; [rewrite (proj1 (proj2 (forget_kept _))); reflexivity|].
        exists L, b. rewrite (proj1 (forget_kept _)).
        match goal with |- rel (if Pos.eqb ?c _ then _ else _) _ _ _ _ _ => change c with to; rewrite Est end. apply forget_ok.
        pose proof (R_nl _ _ _ _ _ _ H Hnl) as HLb. apply start_clear in H. destruct H. constructor; auto; cbn.
        * intros i [= <-]. lia.
        * split; [intros _; lia|auto].
        * unfold inq_ok in *. cbn in *. rewrite Eq in *. auto.
      + apply H0 in H; [|discriminate]. apply start_clear in H.
        match goal with H : rel Any _ ?z _ _ ?rr |- _ => change rr with (set_p (r_p r + 1) (set_actid None (set_ts None r))) in H; set (a1 := z) in * end.
        destruct (eat_to_ok _ _ _ _ (p + 1) _ _ H Hnl (andthen_fail _ _ Hf)) as (a2 & b2 & E2 & H2 & K1 & K2 & K3 & K4).
        rewrite E2 in *. cbn [andthen] in *. destruct (b_p a2) as [i|] eqn:Ei; [|congruence].
        destruct (b_inq a2) eqn:Eq2; [congruence|]. destruct (b_ls a2) eqn:El2; [|congruence].
        eexists _, _. split; [reflexivity|]. split; [reflexivity|].
        split; [rewrite (proj1 (proj2 (forget_kept _))), K2; exact Hnl|].
        exists L, b2. rewrite (proj1 (forget_kept _)), K1.
        match goal with |- rel (if Pos.eqb ?c _ then _ else _) _ _ _ _ _ => change c with to; rewrite Est end. apply forget_ok.
        destruct H2. constructor; auto; cbn.
        * split; [congruence|auto].
        * unfold inq_ok in *. rewrite Eq2 in *. auto.
    - injection Ho as <-. destruct (b_nl a) eqn:Hnl; [cbn in Hf; congruence|].
      apply H0 in H; [|discriminate].
      destruct (eat_to_ok _ _ _ _ (p + 1) _ _ H Hnl (andthen_fail _ _ Hf)) as (a2 & b2 & E2 & H2 & K1 & K2 & K3 & K4).
      unfold u_p, u_pos, u_cs in *. cbn in *. rewrite E2 in *. cbn [andthen] in *. destruct (b_p a2) as [i|] eqn:Ei; [|congruence].
      eexists _, _. split; [reflexivity|]. split; [reflexivity|].
      split; [rewrite (proj1 (proj2 (unsure_kept _))), K2; exact Hnl|].
      exists L, b2. rewrite (proj1 (unsure_kept _)), K1. rewrite Est. apply unsure_ok. auto.
  Qed.

  (** ** Bytes *)
  Lemma vis_nth v n s i c : vis v n s -> nth_error v i = Some c -> nth_error s i = Some c.
  Proof. intros (t & -> & _) H. rewrite nth_error_app1; auto. apply nth_error_Some. congruence. Qed.

  Lemma vis_next v n s c : vis v n s -> nth_error s (length v) = Some c -> vis (v ++ [c]) NAny s /\ exists t, s = v ++ c :: t /\ nxt_ok n (c :: t).
  Proof.
    intros (t & -> & Ht) H. rewrite nth_error_app2, Nat.sub_diag in H by lia. destruct t as [|c' t]; [discriminate|].
    injection H as ->. split; [|eauto]. exists t. rewrite <- app_assoc. split; [reflexivity|exact I].
  Qed.

  (** More is known of the text. *)
  Lemma vis_ok ph C a L b r v n : rel ph C a L b r -> vis v n (at_ b) -> rel ph C (u_ref (b_at a) v n (b_now a) (b_try a) a) L b r.
  Proof. intros H Hv. destruct H. constructor; auto. Qed.

  Lemma learn_ok ph C a L b r i c : rel ph C a L b r -> b_p a = Some i -> 0 <= i ->
    nth_error text (Z.to_nat (r_p r)) = Some c -> learn i c a <> Fail ->
    exists a', learn i c a = Live a' /\ rel ph C a' L b r /\ kept a a' /\ b_p a' = b_p a.
  Proof.
    intros H Hp Hi Hc Hf. rewrite (R_p _ _ _ _ _ _ H _ Hp) in Hc. pose proof (R_L _ _ _ _ _ _ H) as HL.
    rewrite <- at_nth in Hc by lia. pose proof (R_vis _ _ _ _ _ _ H) as Hv. unfold learn in *.
    destruct (nth_error (b_v a) (Z.to_nat i)) as [e|] eqn:Ee.
    - apply (vis_nth _ _ _ _ _ Hv) in Ee. rewrite Hc in Ee. injection Ee as <-. rewrite Z.eqb_refl in *.
      exists a. unfold kept. auto 7.
    - destruct (i =? zlen (b_v a)) eqn:Ei; cbn [negb] in *; [|congruence]. apply Z.eqb_eq in Ei. subst i.
      rewrite Nat2Z.id in Hc. destruct (vis_next _ _ _ _ Hv Hc) as (Hv' & t & Et & Hn).
      pose proof (vis_ok _ _ _ _ _ _ _ _ H Hv') as H'.
      destruct (b_nx a); cbn [nxt_ok] in Hn; try discriminate.
      + eexists. split; [reflexivity|]. split; [exact H'|]. unfold kept. auto.
      + destruct (c =? 10) eqn:E10; [apply Z.eqb_eq in E10; congruence|].
        eexists. split; [reflexivity|]. split; [exact H'|]. unfold kept. auto.
      + subst c. eexists. split; [reflexivity|]. split; [exact H'|]. unfold kept. auto.
  Qed.

  (** The counter tells whether the depth is zero. *)
  Lemma zero_ok ph C a L b r j v : rel ph C a L b r -> b_at a = AIn j -> d_off (b_dep a) = Some (v, 0) ->
    (forall t, d_z (b_dep a) = Some t -> (var_get (r_vars r) v =? 0) = t)
    /\ rel ph C (u_dep (mkD (Some (var_get (r_vars r) v =? 0)) (Some (v, 0))) a) L b r.
  Proof.
    intros H Ha Ho. destruct H. unfold acc_ok in R_acc0.
    assert (Hz : forall g n, place_ok x (AIn j) (d_z (b_dep a)) (b_now a) (Inside g n) (at_ b) -> off_ok (b_dep a) (Inside g n) r ->
      (forall t, d_z (b_dep a) = Some t -> (var_get (r_vars r) v =? 0) = t)
      /\ place_ok x (AIn j) (Some (var_get (r_vars r) v =? 0)) (b_now a) (Inside g n) (at_ b)).
    { intros g n (g' & n' & Hg & E & Hn & Hz) Hof. injection E as <- <-.
      assert ((var_get (r_vars r) v =? 0) = Nat.eqb n 0) as ->.
      { rewrite (Hof _ _ Ho). cbn. destruct n; [reflexivity|]. apply Z.eqb_neq. lia. }
      split; [auto|]. exists g, n. repeat split; auto. congruence. }
    destruct (b_try a) as [y|] eqn:Ey.
    - destruct R_acc0 as (Hq & g & n0 & b0 & rest & Hat & Hg & Hp & Hof & HR).
      assert (y_j y = j) as Ej by congruence. rewrite Ej in *.
      destruct (Hz g n0 Hp Hof) as [Hz1 Hz2]. split; [auto|]. constructor; auto. unfold acc_ok. cbn. rewrite Ey.
      split; [auto|]. exists g, n0, b0, rest. rewrite Ej. split; [auto|]. split; [auto|]. split; [exact Hz2|].
      split; [|auto]. intros w o Hw. cbn in Hw. injection Hw as <- <-. rewrite (Hof _ _ Ho). reflexivity.
    - destruct R_acc0 as (pl & rest & Hp & Hof & HA & Ht). rewrite Ha in Hp. destruct (Hp) as (g & n & Hg & -> & _).
      destruct (Hz g n Hp Hof) as [Hz1 Hz2]. split; [auto|]. constructor; auto. unfold acc_ok. cbn. rewrite Ey.
      exists (Inside g n), rest. rewrite Ha. split; [exact Hz2|].
      split; [|auto]. intros w o Hw. cbn in Hw. injection Hw as <- <-. rewrite (Hof _ _ Ho). reflexivity.
  Qed.

  Lemma src_ok p c : src text p = Ok c -> 0 <= p -> p < zlen text -> nth_error text (Z.to_nat p) = Some c.
  Proof.
    unfold src. intros H H1 H2. destruct (p <? 0) eqn:E; [apply Z.ltb_lt in E; lia|].
    destruct (nth_error text (Z.to_nat p)) eqn:En; [congruence|]. apply nth_error_None in En. lia.
  Qed.

  Lemma select_ok C L b r br : forall a l e, rel Tok C a L b r -> select_edge br a = Some l -> b_nl a = false ->
    select text br r = Ok e -> exists a', In (e, a') l /\ rel Tok C a' L b r /\ b_nl a' = false.
  Proof.
    induction br as [e0|c y IHy n IHn]; intros a l e H Hs Hnl Hr; cbn [select_edge select] in *.
    - injection Hs as <-. injection Hr as <-. exists a. split; [left; auto|auto].
    - destruct (eval_cond text c r) as [t| |] eqn:Et; cbn [bind] in Hr; try discriminate.
      destruct c; try discriminate; cbn [eval_cond] in Et.
      + destruct (b_p a) as [p|] eqn:Ep; [|discriminate]. destruct (p <? 0) eqn:Hi; [discriminate|]. apply Z.ltb_ge in Hi.
        pose proof (R_p _ _ _ _ _ _ H _ Ep) as Hp. pose proof (R_L _ _ _ _ _ _ H) as HL.
        pose proof (R_vis _ _ _ _ _ _ H) as Hv. pose proof (R_len _ _ _ _ _ _ H) as Hlen.
        destruct (nth_error (b_v a) (Z.to_nat (p + 1))) as [c|] eqn:Ec.
        * assert (Hc : nth_error text (Z.to_nat (r_p r + 1)) = Some c).
          { rewrite Hp. replace (b + p + 1) with (b + (p + 1)) by lia. rewrite <- at_nth by lia. eapply vis_nth; eauto. }
          assert (Hlt : r_p r + 1 < zlen text).
          { assert (Z.to_nat (r_p r + 1) < length text)%nat by (apply nth_error_Some; congruence). lia. }
          apply Z.ltb_lt in Hlt. rewrite Hlt in Et. unfold src in Et.
          destruct (r_p r + 1 <? 0) eqn:E0; [apply Z.ltb_lt in E0; lia|]. rewrite Hc in Et. cbn [bind] in Et. injection Et as <-.
          destruct (c =? 10); cbn [negb] in Hr; eauto.
        * destruct (p + 1 =? zlen (b_v a)) eqn:E1; cbn [negb] in Hs; [|discriminate]. apply Z.eqb_eq in E1.
          assert (Hbp : r_p r + 1 = b + zlen (b_v a)) by lia.
          assert (Hnx : nxt_ok (if t then NNoLf else NLfEnd) (skipn (length (b_v a)) (at_ b))).
          { destruct Hv as (tl & Htl & Hok). rewrite Htl, skipn_app, skipn_all, Nat.sub_diag. cbn [app skipn].
            destruct (r_p r + 1 <? zlen text) eqn:E2.
            - apply Z.ltb_lt in E2. destruct (src text (r_p r + 1)) as [c| |] eqn:Es; cbn [bind] in Et; try discriminate.
              apply src_ok in Es; [|lia|lia]. rewrite Hbp in Es. rewrite <- at_nth in Es by lia.
              rewrite Htl, Nat2Z.id, nth_error_app2, Nat.sub_diag in Es by lia. destruct tl as [|c' tl]; [discriminate|].
              injection Es as ->. injection Et as <-. destruct (c =? 10) eqn:Ec10; cbn [negb nxt_ok]; [apply Z.eqb_eq|apply Z.eqb_neq]; auto.
            - injection Et as <-. apply Z.ltb_ge in E2. pose proof (at_len b ltac:(lia) Hlen) as Hal.
              rewrite Htl, app_length in Hal. destruct tl as [|c' tl]; [exact I|]. cbn [length] in Hal. lia. }
          assert (Hv' : vis (b_v a) (if t then NNoLf else NLfEnd) (at_ b)).
          { destruct Hv as (tl & Htl & Hok). exists tl. split; auto.
            rewrite Htl, skipn_app, skipn_all, Nat.sub_diag in Hnx. exact Hnx. }
          assert (H' : rel Tok C (u_nx (if t then NNoLf else NLfEnd) a) L b r) by (apply vis_ok; auto).
          destruct (b_nx a) eqn:En.
          -- destruct (select_edge y (u_nx NNoLf a)) as [l1|] eqn:E3; [|discriminate].
             destruct (select_edge n (u_nx NLfEnd a)) as [l2|] eqn:E4; [|discriminate]. injection Hs as <-.
             destruct t.
             ++ destruct (IHy _ _ _ H' E3 Hnl Hr) as (a' & Ha' & R'). exists a'. split; [apply in_or_app; auto|auto].
             ++ destruct (IHn _ _ _ H' E4 Hnl Hr) as (a' & Ha' & R'). exists a'. split; [apply in_or_app; auto|auto].
          -- destruct t; [eauto|]. exfalso. destruct Hv as (tl & Htl & Hok). destruct Hv' as (tl' & Htl' & Hok').
             rewrite Htl in Htl'. apply app_inv_head in Htl'. subst tl'. cbn in *. destruct tl; auto.
          -- destruct t; [|eauto]. exfalso. destruct Hv as (tl & Htl & Hok). destruct Hv' as (tl' & Htl' & Hok').
             rewrite Htl in Htl'. apply app_inv_head in Htl'. subst tl'. cbn in *. destruct tl; auto.
          -- destruct t; [|eauto]. exfalso. destruct Hv as (tl & Htl & Hok). destruct Hv' as (tl' & Htl' & Hok').
             rewrite Htl in Htl'. apply app_inv_head in Htl'. subst tl'. cbn in *. subst tl. auto.
      + destruct (b_p a) as [p|] eqn:Ep; [|discriminate]. destruct (p <? 0) eqn:Hi; [discriminate|]. apply Z.ltb_ge in Hi.
        pose proof (R_p _ _ _ _ _ _ H _ Ep) as Hp. pose proof (R_L _ _ _ _ _ _ H) as HL.
        pose proof (R_vis _ _ _ _ _ _ H) as Hv. pose proof (R_st _ _ _ _ _ _ H) as Hst. unfold starts_at in Hst.
        pose proof (R_len _ _ _ _ _ _ H) as Hlen.
        assert (Hnl' : forall c, is_nl c = newline_byte c).
        { intros c. unfold is_nl, newline_byte. destruct (c =? 13), (c =? 10), (c =? 12); reflexivity. }
        assert (Hsrc : forall c, 0 < r_p r -> nth_error text (Z.to_nat (r_p r - 1)) = Some c -> t = newline_byte c).
        { intros c Hpos Hc. destruct (r_p r =? 0) eqn:E0; [apply Z.eqb_eq in E0; lia|]. unfold src in Et.
          destruct (r_p r - 1 <? 0) eqn:E1; [apply Z.ltb_lt in E1; lia|]. rewrite Hc in Et. cbn [bind] in Et.
          injection Et as <-. apply Hnl'. }
        destruct (p =? 0) eqn:Ep0.
        * apply Z.eqb_eq in Ep0. subst p. rewrite Z.add_0_r in Hp. rewrite Hp in *.
          assert (t = n_start (b_now a)) as ->.
          { rewrite Hst. destruct (b =? 0) eqn:Eb; [injection Et as <-; reflexivity|]. apply Z.eqb_neq in Eb. cbn [orb].
            destruct (nth_error text (Z.to_nat (b - 1))) as [c|] eqn:Ec.
            - rewrite (nth_error_nth _ _ 0 Ec). apply Hsrc; [lia|reflexivity].
            - apply nth_error_None in Ec. lia. }
          destruct (n_start (b_now a)); eauto.
        * apply Z.eqb_neq in Ep0. destruct (nth_error (b_v a) (Z.to_nat (p - 1))) as [c|] eqn:Ec; [|discriminate].
          assert (Hc : nth_error text (Z.to_nat (r_p r - 1)) = Some c).
          { rewrite Hp. replace (b + p - 1) with (b + (p - 1)) by lia. rewrite <- at_nth by lia. eapply vis_nth; eauto. }
          rewrite (Hsrc c ltac:(lia) Hc) in Hr. destruct (newline_byte c); eauto.
      + injection Et as <-. rewrite (R_lcc _ _ _ _ _ _ H) in Hr. destruct (b_lcc a); cbn [negb] in Hr; eauto.
      + injection Et as <-. destruct (b_at a) as [k|j] eqn:Ea; [discriminate|].
        destruct (d_off (b_dep a)) as [[u [| |]]|] eqn:Eo; try discriminate.
        destruct (u =? v) eqn:Eu; cbn [negb] in Hs; [|discriminate]. apply Z.eqb_eq in Eu. subst u.
        destruct (zero_ok _ _ _ _ _ _ _ _ H Ea Eo) as [Hz1 Hz2].
        destruct (d_z (b_dep a)) as [t|].
        * rewrite (Hz1 _ eq_refl) in Hr. destruct t; eauto.
        * destruct (select_edge y _) as [l1|] eqn:E3 in Hs; [|discriminate].
          destruct (select_edge n _) as [l2|] eqn:E4 in Hs; [|discriminate]. injection Hs as <-.
          destruct (var_get (r_vars r) v =? 0).
          -- destruct (IHy _ _ _ Hz2 E3 Hnl Hr) as (a' & Ha' & R'). exists a'. split; [apply in_or_app; auto|auto].
          -- destruct (IHn _ _ _ Hz2 E4 Hnl Hr) as (a' & Ha' & R'). exists a'. split; [apply in_or_app; auto|auto].
  Qed.

  (** ** Edges *)
  Lemma is_doomed_ok ph C a L b r : rel ph C a L b r -> is_doomed x a = true ->
    match b_try a with
    | None => False
    | Some y => forall g n, place_ok x (b_at a) (d_z (b_dep a)) (b_now a) (Inside g n) (at_ b) -> ~ Cl g n (at_ b)
    end.
  Proof.
    intros H Hdm. unfold is_doomed in Hdm. destruct H. unfold acc_ok in R_acc0. destruct (b_try a) as [y|].
    - intros g n Hp. pose proof (doomed_ok x lang _ _ _ _ _ _ _ _ _ Hp R_vis0 Hdm) as HD. cbn in HD. eapply HD. reflexivity.
    - destruct R_acc0 as (pl & rest & Hp & Hof & HA & Ht).
      pose proof (doomed_ok x lang _ _ _ _ _ _ _ _ _ Hp R_vis0 Hdm) as HD. cbn in HD. eapply HD. exact HA.
  Qed.

  Lemma is_dead_ok ph C a L b r : rel ph C a L b r -> is_dead x a = false.
  Proof.
    intros H. unfold is_dead. destruct (b_try a) eqn:E; [reflexivity|]. destruct (is_doomed x a) eqn:Ed; [|reflexivity].
    pose proof (is_doomed_ok _ _ _ _ _ _ H Ed) as HF. rewrite E in HF. contradiction.
  Qed.

  Lemma set_cs_ok ph C C' a L b r : rel ph C a L b r -> rel ph C' a L b (set_cs C' r).
  Proof. intros H. destruct H. constructor; auto. Qed.

  Lemma edge_ok C e a L b r r2 j o : rel Tok C a L b r -> b_nl a = false -> do_edge x lang d e a <> Fail ->
    exec_instrs m text d (e_ins e) (set_cs (option_map (fun s => (O, s)) (e_to e)) r) = Ok (r2, j) ->
    again m r2 = Ok o ->
    exists a' r', o = Go r' /\ do_edge x lang d e a = Live a' /\ inv a' r'.
  Proof.
    intros H Hnl Hf Hr Ho. unfold do_edge in *. rewrite (is_dead_ok _ _ _ _ _ _ H) in *.
    destruct (e_to e) as [to|].
    - cbn [option_map] in Hr.
      assert (Hf' : match b_p a with Some p => eat_to x p a | None => Live a end <> Fail)
        by (destruct (b_p a); apply andthen_fail in Hf; auto).
      assert (exists a1 b1, match b_p a with Some p => eat_to x p a | None => Live a end = Live a1 /\ rel Tok C a1 L b1 r) as (a1 & b1 & E1 & H1).
      { destruct (b_p a) as [p|]; [|exists a, b; auto].
        destruct (eat_to_ok _ _ _ _ _ _ _ H Hnl Hf') as (a1 & b1 & E1 & H1 & _). eauto. }
      assert (E : forall f, andthen (match b_p a with Some p => eat_to x p a | None => Live a end) f = f a1)
        by (intros f; rewrite E1; reflexivity).
      destruct (b_p a); rewrite E in *;
      (apply (set_cs_ok _ _ (Some (O, to))) in H1;
       destruct (k_instrs_ok _ _ _ _ _ _ _ _ _ H1 (andthen_fail _ _ Hf) Hr) as [-> (a2 & L2 & b2 & E2 & H2)];
       rewrite E2 in *; cbn [andthen] in *;
       destruct (settle_ok _ _ _ _ _ _ H2 Hf Ho) as (a3 & r3 & -> & E3 & H3); eauto).
    - destruct (b_p a) as [p|]; [|congruence].
      destruct (eat_to x (p + 1) a) eqn:Ee; try congruence.
      assert (Hne : eat_to x (p + 1) a <> Fail) by congruence.
      destruct (eat_to_ok _ _ _ _ _ _ _ H Hnl Hne) as (a1 & b1 & E1 & _). congruence.
  Qed.

  Lemma edge_null C e a L b r : rel Tok C a L b r -> b_nl a = false -> do_edge x lang d e a <> Fail ->
    no_null (exec_instrs m text d (e_ins e) (set_cs (option_map (fun s => (O, s)) (e_to e)) r)).
  Proof.
    intros H Hnl Hf. unfold do_edge in *. rewrite (is_dead_ok _ _ _ _ _ _ H) in *.
    destruct (e_to e) as [to|].
    - cbn [option_map].
      assert (Hf' : match b_p a with Some p => eat_to x p a | None => Live a end <> Fail)
        by (destruct (b_p a); apply andthen_fail in Hf; auto).
      assert (exists a1 b1, match b_p a with Some p => eat_to x p a | None => Live a end = Live a1 /\ rel Tok C a1 L b1 r) as (a1 & b1 & E1 & H1).
      { destruct (b_p a) as [p|]; [|exists a, b; auto].
        destruct (eat_to_ok _ _ _ _ _ _ _ H Hnl Hf') as (a1 & b1 & E1 & H1 & _). eauto. }
      assert (E : forall f, andthen (match b_p a with Some p => eat_to x p a | None => Live a end) f = f a1)
        by (intros f; rewrite E1; reflexivity).
      destruct (b_p a); rewrite E in *;
      (apply (set_cs_ok _ _ (Some (O, to))) in H1; exact (k_instrs_null _ _ _ _ _ _ _ H1 (andthen_fail _ _ Hf))).
    - destruct (b_p a) as [p|]; [|congruence].
      destruct (eat_to x (p + 1) a) eqn:Ee; try congruence.
      assert (Hne : eat_to x (p + 1) a <> Fail) by congruence.
      destruct (eat_to_ok _ _ _ _ _ _ _ H Hnl Hne) as (a1 & b1 & E1 & _). congruence.
  Qed.

  Lemma again_null r : no_null (again m r).
  Proof.
    unfold again. destruct (r_cs r) as [[i k]|]; [|apply no_null_ok]. unfold dfa_of.
    destruct (nth_error (m_dfas m) i); cbn; discriminate.
  Qed.

  Lemma select_null b r : no_null (select text b r).
  Proof.
    induction b as [e|c y IHy n IHn]; cbn [select]; [apply no_null_ok|]. apply no_null_bind; [|intros [] _; auto].
    assert (Hs : forall p, no_null (src text p)).
    { intros p. unfold src, no_null. destruct (p <? 0); [discriminate|]. destruct (nth_error text (Z.to_nat p)); [discriminate|].
      destruct (p =? zlen text); discriminate. }
    destruct c; cbn [eval_cond]; try apply no_null_ok.
    - destruct (_ <? _); [|apply no_null_ok]. apply no_null_bind; [auto|intros; apply no_null_ok].
    - destruct (_ =? _); [apply no_null_ok|]. apply no_null_bind; [auto|intros; apply no_null_ok].
  Qed.

  Lemma all_edges_ok l e a : In (e, a) l -> forall k, all_edges x lang d l = Some k ->
    do_edge x lang d e a <> Fail /\ forall a', do_edge x lang d e a = Live a' -> In a' k.
  Proof.
    induction l as [|[e0 a0] l IH]; intros Hin k Hk; [destruct Hin|]. cbn [all_edges] in Hk.
    destruct Hin as [E|Hin].
    - injection E as -> ->. destruct (do_edge x lang d e a) as [| |b].
      + discriminate.
      + split; [discriminate|]. discriminate.
      + split; [discriminate|]. intros a' [= <-]. destruct (all_edges x lang d l); [|discriminate]. injection Hk as <-. left; auto.
    - destruct (do_edge x lang d e0 a0) as [| |b0]; [discriminate| |]; destruct (all_edges x lang d l) as [k'|]; try discriminate;
        injection Hk as <-; destruct (IH Hin _ eq_refl) as [H1 H2]; split; auto. intros a' E. right. auto.
  Qed.

  Lemma byte_ok q a r c cl br l r1 e r2 j o : inv a r -> r_p r <> zlen text -> src text (r_p r) = Ok c ->
    PM.find (Z.to_pos (c + 1)) (m_class m) = Some cl -> nth_error (q_row q) cl = Some br ->
    on_byte x lang m d q a c = Some l ->
    r1 = (if Pos.eqb (b_cs a) (df_start d) then set_ts (Some (r_p r)) r else r) ->
    select text br r1 = Ok e ->
    exec_instrs m text d (e_ins e) (set_cs (option_map (fun s => (O, s)) (e_to e)) r1) = Ok (r2, j) ->
    again m r2 = Ok o ->
    exists a' r', o = Go r' /\ In a' l /\ inv a' r'.
  Proof.
    intros (Hnl & L & b & H) Hne Hc Hcl Hbr Hon -> Hse Hr Ho. unfold on_byte in Hon.
    destruct (b_p a) as [i|] eqn:Ep; [|discriminate]. destruct (i <? 0) eqn:Ei; [discriminate|]. apply Z.ltb_ge in Ei.
    assert (Hnth : nth_error text (Z.to_nat (r_p r)) = Some c).
    { unfold src in Hc. destruct (r_p r <? 0); [discriminate|]. destruct (nth_error text (Z.to_nat (r_p r))); [congruence|].
      apply Z.eqb_neq in Hne. rewrite Hne in Hc. discriminate. }
    assert (Hf : learn i c a <> Fail) by (intros E; rewrite E in Hon; discriminate).
    destruct (learn_ok _ _ _ _ _ _ _ _ H Ep Ei Hnth Hf) as (a1 & E1 & H1 & (K1 & K2 & K3 & K4) & K5).
    rewrite E1, Hcl, Hbr in Hon. cbv zeta in Hon. rewrite K1 in Hon.
    set (a2 := if Pos.eqb (b_cs a) (df_start d) then u_ts (Some i) a1 else a1) in *.
    set (r1 := if Pos.eqb (b_cs a) (df_start d) then set_ts (Some (r_p r)) r else r) in *.
    assert (H2 : rel Tok (Some (O, b_cs a)) a2 L b r1 /\ b_nl a2 = false /\ b_p a2 = Some i).
    { unfold a2, r1. destruct (Pos.eqb (b_cs a) (df_start d)) eqn:Es.
      - split; [|split; cbn; congruence].
        rewrite Ep in K5. pose proof (R_p _ _ _ _ _ _ H1 _ K5) as Hp.
        destruct H1. destruct R_ls3 as [R_ls3 R_q]. constructor; auto; cbn.
        + intros t [= <-]. congruence.
        + intros E _. f_equal. apply R_ls3. exact E.
        + unfold inq_ok in *. cbn. rewrite R_q in *. auto.
        + unfold acc_ok in *. cbn. destruct (b_try a1) as [y|]; cbn; [|auto].
          destruct R_acc0 as (Hq & g & n0 & b0 & rest & Hat & Hg & Hp' & Hof & HL & Hb0 & Hv & Hbef & Hop & HA & HC & Ht & Hte & Hts).
          split; [auto|]. exists g, n0, b0, rest. repeat (split; [assumption|]). discriminate.
      - split; [exact H1|]. split; congruence. }
    destruct H2 as (H2 & Hn2 & Hp2). rewrite (is_dead_ok _ _ _ _ _ _ H2) in Hon.
    assert (Hf2 : eat_to x i a2 <> Fail) by (intros E; rewrite E in Hon; discriminate).
    destruct (eat_to_ok _ _ _ _ _ _ _ H2 Hn2 Hf2) as (a3 & b3 & E3 & H3 & (M1 & M2 & M3 & M4)). rewrite E3 in Hon.
    destruct (select_edge br a3) as [el|] eqn:Ese; [|discriminate].
    destruct (select_ok _ _ _ _ _ _ _ _ H3 Ese ltac:(congruence) Hse) as (a4 & Hin & H4 & Hn4).
    destruct (all_edges_ok _ _ _ Hin _ Hon) as [Hf4 Hin4].
    destruct (edge_ok _ _ _ _ _ _ _ _ _ H4 Hn4 Hf4 Hr Ho) as (a5 & r5 & -> & E5 & H5). eauto 6.
  Qed.

  Lemma byte_null q a r c cl br l r1 e : inv a r -> r_p r <> zlen text -> src text (r_p r) = Ok c ->
    PM.find (Z.to_pos (c + 1)) (m_class m) = Some cl -> nth_error (q_row q) cl = Some br ->
    on_byte x lang m d q a c = Some l ->
    r1 = (if Pos.eqb (b_cs a) (df_start d) then set_ts (Some (r_p r)) r else r) ->
    select text br r1 = Ok e ->
    no_null (exec_instrs m text d (e_ins e) (set_cs (option_map (fun s => (O, s)) (e_to e)) r1)).
  Proof.
    intros (Hnl & L & b & H) Hne Hc Hcl Hbr Hon -> Hse. unfold on_byte in Hon.
    destruct (b_p a) as [i|] eqn:Ep; [|discriminate]. destruct (i <? 0) eqn:Ei; [discriminate|]. apply Z.ltb_ge in Ei.
    assert (Hnth : nth_error text (Z.to_nat (r_p r)) = Some c).
    { unfold src in Hc. destruct (r_p r <? 0); [discriminate|]. destruct (nth_error text (Z.to_nat (r_p r))); [congruence|].
      apply Z.eqb_neq in Hne. rewrite Hne in Hc. discriminate. }
    assert (Hf : learn i c a <> Fail) by (intros E; rewrite E in Hon; discriminate).
    destruct (learn_ok _ _ _ _ _ _ _ _ H Ep Ei Hnth Hf) as (a1 & E1 & H1 & (K1 & K2 & K3 & K4) & K5).
    rewrite E1, Hcl, Hbr in Hon. cbv zeta in Hon. rewrite K1 in Hon.
    set (a2 := if Pos.eqb (b_cs a) (df_start d) then u_ts (Some i) a1 else a1) in *.
    set (r1 := if Pos.eqb (b_cs a) (df_start d) then set_ts (Some (r_p r)) r else r) in *.
    assert (H2 : rel Tok (Some (O, b_cs a)) a2 L b r1 /\ b_nl a2 = false /\ b_p a2 = Some i).
    { unfold a2, r1. destruct (Pos.eqb (b_cs a) (df_start d)) eqn:Es.
      - split; [|split; cbn; congruence].
        rewrite Ep in K5. pose proof (R_p _ _ _ _ _ _ H1 _ K5) as Hp.
        destruct H1. destruct R_ls3 as [R_ls3 R_q]. constructor; auto; cbn.
        + intros t [= <-]. congruence.
        + intros E _. f_equal. apply R_ls3. exact E.
        + unfold inq_ok in *. cbn. rewrite R_q in *. auto.
        + unfold acc_ok in *. cbn. destruct (b_try a1) as [y|]; cbn; [|auto].
          destruct R_acc0 as (Hq & g & n0 & b0 & rest & Hat & Hg & Hp' & Hof & HL & Hb0 & Hv & Hbef & Hop & HA & HC & Ht & Hte & Hts).
          split; [auto|]. exists g, n0, b0, rest. repeat (split; [assumption|]). discriminate.
      - split; [exact H1|]. split; congruence. }
    destruct H2 as (H2 & Hn2 & Hp2). rewrite (is_dead_ok _ _ _ _ _ _ H2) in Hon.
    assert (Hf2 : eat_to x i a2 <> Fail) by (intros E; rewrite E in Hon; discriminate).
    destruct (eat_to_ok _ _ _ _ _ _ _ H2 Hn2 Hf2) as (a3 & b3 & E3 & H3 & (M1 & M2 & M3 & M4)). rewrite E3 in Hon.
    destruct (select_edge br a3) as [el|] eqn:Ese; [|discriminate].
    destruct (select_ok _ _ _ _ _ _ _ _ H3 Ese ltac:(congruence) Hse) as (a4 & Hin & H4 & Hn4).
    destruct (all_edges_ok _ _ _ Hin _ Hon) as [Hf4 Hin4].
    exact (edge_null _ _ _ _ _ _ H4 Hn4 Hf4).
  Qed.

  (** ** The end of the buffer *)
  Definition done (r : rt) : Prop :=
    exists r2, process_last_line m text r = Ok r2 /\ rev (r_out r2) = total.

  Lemma finished_ok C a L b r ph : rel ph C a L b r -> finished x a = true -> done r.
  Proof.
    intros H Hf. unfold finished in Hf. dand. unfold done, process_last_line. destruct H.
    destruct (b_v a); [|discriminate]. destruct (b_nx a); try discriminate. destruct R_vis0 as (t & Et & Hn). cbn in Et, Hn. rewrite Hn in Et. clear t Hn.
    destruct (b_try a) eqn:Ey; [discriminate|]. destruct (b_inq a) eqn:Eq; [discriminate|].
    unfold acc_ok in R_acc0. rewrite Ey in R_acc0. destruct R_acc0 as (pl & rest & Hp & Hof & HA & Ht).
    unfold inq_ok in R_inq0. rewrite Eq in R_inq0. unfold queue in Ht. rewrite R_inq0 in Ht. cbn in Ht.
    rewrite Et in HA. apply Acc_nil in HA as [_ Hrest].
    pose proof (at_len b ltac:(lia) R_len0) as Hal. rewrite Et in Hal. cbn in Hal. assert (b = zlen text) by lia. subst b.
    rewrite R_wlc0, R_lcc0. set (kd := kind_now (b_now a)) in *.
    assert (Hk : RagelRun.kind r = kind_name kd /\ b_wlc a || b_lcc a = match kd with Blank => false | _ => true end).
    { unfold RagelRun.kind. rewrite R_wlc0, R_lcc0. match goal with H : kind_eqb _ _ = true |- _ => revert H end. unfold kind_now. cbn.
      destruct (b_lcc a), (b_wlc a), kd; cbn; try discriminate; auto. }
    destruct Hk as [Hk1 Hk2]. rewrite Hk2. destruct kd.
    - eexists. split; [reflexivity|]. rewrite Ht, Hrest, app_nil_r. reflexivity.
    - rewrite R_ls0. match goal with H : b_ls a = true |- _ => rewrite H end. unfold callback. cbn [cint bind].
      eexists. split; [reflexivity|]. cbn. rewrite Ht, Hrest, Hk1, Hlang. reflexivity.
    - rewrite R_ls0. match goal with H : b_ls a = true |- _ => rewrite H end. unfold callback. cbn [cint bind].
      eexists. split; [reflexivity|]. cbn. rewrite Ht, Hrest, Hk1, Hlang. reflexivity.
  Qed.

  Lemma end_ok q a r l o : inv a r -> r_p r = zlen text -> on_end x lang d q a = Some l ->
    match q_eof_to q with
    | Some s => '(r, _) <- exec_instrs m text d (q_eof q) (set_cs (Some (O, s)) r) ;; again m r
    | None => '(r, j) <- exec_instrs m text d (q_eof q) r ;; if j then again m r else Ok (Stop r)
    end = Ok o ->
    match o with Go r' => exists a', In a' l /\ inv a' r' | Stop r' => done r' end.
  Proof.
    intros (Hnl & L & b & H) Hp Hon Hs. unfold on_end in Hon.
    destruct (b_p a) as [i|] eqn:Ep; [|discriminate].
    pose proof (R_p _ _ _ _ _ _ H _ Ep) as Hpi. pose proof (R_L _ _ _ _ _ _ H) as HL.
    pose proof (R_vis _ _ _ _ _ _ H) as Hv. pose proof (R_len _ _ _ _ _ _ H) as Hlen.
    pose proof (vis_len _ _ b ltac:(lia) Hlen Hv) as Hvl.
    destruct (i <? zlen (b_v a)) eqn:E1; [apply Z.ltb_lt in E1; lia|].
    destruct (i =? zlen (b_v a)) eqn:E2; cbn [negb] in Hon; [|discriminate]. apply Z.eqb_eq in E2.
    assert (Heof : exists t, at_ b = b_v a ++ t /\ t = [] /\ nxt_ok (b_nx a) t).
    { destruct Hv as (t & Et & Hn). exists t. split; auto. split; auto.
      pose proof (at_len b ltac:(lia) Hlen) as Hal. rewrite Et, app_length in Hal. destruct t; auto. cbn in Hal. lia. }
    destruct Heof as (t & Et & -> & Hn).
    set (a1 := u_nx NEof a) in *.
    assert (Hon' : (if is_dead x a1 then Some []
                    else
                     let a := match b_try a1 with Some y => if is_doomed x a1 then revert y a1 else a1 | None => a1 end in
                     match q_eof_to q with
                     | Some to => if Pos.eqb (b_cs a) (df_start d) then None
                                  else all_edges x lang d [(mkEdge (Some to) (q_eof q), a)]
                     | None =>
                       match b_p a with
                       | None => None
                       | Some i =>
                         match eat_to x i a with
                         | Dead => Some []
                         | Fail => None
                         | Live a => if nil_b (q_eof q) && finished x a then Some [] else None
                         end
                       end
                     end) = Some l).
    { destruct (b_nx a); auto. cbn in Hn. contradiction. }
    clear Hon. cbv zeta in Hon'.
    assert (H1 : rel (if Pos.eqb (b_cs a) (df_start d) then Sep else Tok) (Some (O, b_cs a)) a1 L b r).
    { apply vis_ok; auto. exists []. split; auto. reflexivity. }
    rewrite (is_dead_ok _ _ _ _ _ _ H1) in Hon'.
    assert (Hrev : exists a2 b2, match b_try a1 with Some y => if is_doomed x a1 then revert y a1 else a1 | None => a1 end = a2
              /\ rel (if Pos.eqb (b_cs a) (df_start d) then Sep else Tok) (Some (O, b_cs a)) a2 L b2 r
              /\ b_nl a2 = false /\ b_cs a2 = b_cs a).
    { destruct (b_try a1) as [y|] eqn:Ey; [|exists a1, b; auto]. destruct (is_doomed x a1) eqn:Edm; [|exists a1, b; auto].
      pose proof (is_doomed_ok _ _ _ _ _ _ H1 Edm) as HD. rewrite Ey in HD.
      destruct (revert_ok _ _ _ _ _ _ y H1 Ey Hnl) as (b2 & H2); [intros g n Hpl _; apply HD; auto|].
      exists (revert y a1), b2. auto. }
    destruct Hrev as (a2 & b2 & E & H2 & Hn2 & Hc2). rewrite E in Hon'. clear E.
    destruct (q_eof_to q) as [to|].
    - rewrite Hc2 in Hon'. destruct (Pos.eqb (b_cs a) (df_start d)); [discriminate|].
      destruct (exec_instrs m text d (q_eof q) (set_cs (Some (O, to)) r)) as [[r2 j]| |] eqn:Ex; cbn [bind] in Hs; try discriminate.
      destruct (all_edges_ok _ _ _ (in_eq _ _) _ Hon') as [Hf4 Hin4].
      destruct (edge_ok _ _ _ _ _ _ _ _ _ H2 Hn2 Hf4 Ex Hs) as (a5 & r5 & -> & E5 & H5). eauto.
    - destruct (b_p a2) as [i2|] eqn:Ep2; [|discriminate].
      assert (Hf2 : eat_to x i2 a2 <> Fail) by (intros E; rewrite E in Hon'; discriminate).
      destruct (eat_to_ok _ _ _ _ _ _ _ H2 Hn2 Hf2) as (a3 & b3 & E3 & H3 & _). rewrite E3 in Hon'.
      destruct (nil_b (q_eof q)) eqn:Eq; [|discriminate]. destruct (q_eof q); [|discriminate]. cbn [andb] in Hon'.
      destruct (finished x a3) eqn:Ef; [|discriminate]. cbn in Hs. injection Hs as <-. eapply finished_ok; eauto.
  Qed.

  Lemma end_null q a r l : inv a r -> r_p r = zlen text -> on_end x lang d q a = Some l ->
    no_null match q_eof_to q with
    | Some s => '(r, _) <- exec_instrs m text d (q_eof q) (set_cs (Some (O, s)) r) ;; again m r
    | None => '(r, j) <- exec_instrs m text d (q_eof q) r ;; if j then again m r else Ok (Stop r)
    end.
  Proof.
    intros (Hnl & L & b & H) Hp Hon. unfold on_end in Hon.
    destruct (b_p a) as [i|] eqn:Ep; [|discriminate].
    pose proof (R_p _ _ _ _ _ _ H _ Ep) as Hpi. pose proof (R_L _ _ _ _ _ _ H) as HL.
    pose proof (R_vis _ _ _ _ _ _ H) as Hv. pose proof (R_len _ _ _ _ _ _ H) as Hlen.
    pose proof (vis_len _ _ b ltac:(lia) Hlen Hv) as Hvl.
    destruct (i <? zlen (b_v a)) eqn:E1; [apply Z.ltb_lt in E1; lia|].
    destruct (i =? zlen (b_v a)) eqn:E2; cbn [negb] in Hon; [|discriminate]. apply Z.eqb_eq in E2.
    assert (Heof : exists t, at_ b = b_v a ++ t /\ t = [] /\ nxt_ok (b_nx a) t).
    { destruct Hv as (t & Et & Hn). exists t. split; auto. split; auto.
      pose proof (at_len b ltac:(lia) Hlen) as Hal. rewrite Et, app_length in Hal. destruct t; auto. cbn in Hal. lia. }
    destruct Heof as (t & Et & -> & Hn).
    set (a1 := u_nx NEof a) in *.
    assert (Hon' : (if is_dead x a1 then Some []
                    else
                     let a := match b_try a1 with Some y => if is_doomed x a1 then revert y a1 else a1 | None => a1 end in
                     match q_eof_to q with
                     | Some to => if Pos.eqb (b_cs a) (df_start d) then None
                                  else all_edges x lang d [(mkEdge (Some to) (q_eof q), a)]
                     | None =>
                       match b_p a with
                       | None => None
                       | Some i =>
                         match eat_to x i a with
                         | Dead => Some []
                         | Fail => None
                         | Live a => if nil_b (q_eof q) && finished x a then Some [] else None
                         end
                       end
                     end) = Some l).
    { destruct (b_nx a); auto. cbn in Hn. contradiction. }
    clear Hon. cbv zeta in Hon'.
    assert (H1 : rel (if Pos.eqb (b_cs a) (df_start d) then Sep else Tok) (Some (O, b_cs a)) a1 L b r).
    { apply vis_ok; auto. exists []. split; auto. reflexivity. }
    rewrite (is_dead_ok _ _ _ _ _ _ H1) in Hon'.
    assert (Hrev : exists a2 b2, match b_try a1 with Some y => if is_doomed x a1 then revert y a1 else a1 | None => a1 end = a2
              /\ rel (if Pos.eqb (b_cs a) (df_start d) then Sep else Tok) (Some (O, b_cs a)) a2 L b2 r
              /\ b_nl a2 = false /\ b_cs a2 = b_cs a).
    { destruct (b_try a1) as [y|] eqn:Ey; [|exists a1, b; auto]. destruct (is_doomed x a1) eqn:Edm; [|exists a1, b; auto].
      pose proof (is_doomed_ok _ _ _ _ _ _ H1 Edm) as HD. rewrite Ey in HD.
      destruct (revert_ok _ _ _ _ _ _ y H1 Ey Hnl) as (b2 & H2); [intros g n Hpl _; apply HD; auto|].
      exists (revert y a1), b2. auto. }
    destruct Hrev as (a2 & b2 & E & H2 & Hn2 & Hc2). rewrite E in Hon'. clear E.
    destruct (q_eof_to q) as [to|].
    - rewrite Hc2 in Hon'. destruct (Pos.eqb (b_cs a) (df_start d)); [discriminate|].
      apply no_null_bind; [|intros [r2 j] _; apply again_null].
      destruct (all_edges_ok _ _ _ (in_eq _ _) _ Hon') as [Hf4 _]. exact (edge_null _ _ _ _ _ _ H2 Hn2 Hf4).
    - destruct (b_p a2) as [i2|] eqn:Ep2; [|discriminate].
      destruct (nil_b (q_eof q)) eqn:Eq; [|destruct (eat_to x i2 a2) eqn:E3; try discriminate].
      + destruct (q_eof q); [|discriminate]. apply no_null_ok.
      + assert (Hf2 : eat_to x i2 a2 <> Fail) by congruence.
        destruct (eat_to_ok _ _ _ _ _ _ _ H2 Hn2 Hf2) as (a3 & b3 & E4 & _). congruence.
  Qed.

  (** ** The loop *)
  Variable bs : list Z.
  Variable tb : table.
  Hypothesis Htb : forall a, t_mem tb a = true -> check_state x lang bs m d tb a = true.
  Hypothesis Hbytes : forall c, In c text -> In c bs.

  Definition good (r : rt) : Prop := exists a, t_mem tb a = true /\ inv a r.

  Lemma step_ok r o : good r -> step m text r = Ok o -> match o with Go r' => good r' | Stop r' => done r' end.
  Proof.
    intros (a & Ha & Hi) Hs. pose proof (Htb _ Ha) as Hck. unfold check_state in Hck.
    assert (Hcs : r_cs r = Some (O, b_cs a)) by (destruct Hi as (_ & L & b & H); apply (R_cs _ _ _ _ _ _ H)).
    unfold step in Hs. rewrite Hcs in Hs. unfold dfa_of in Hs. rewrite Hd in Hs. cbn [bind] in Hs. unfold state_of in Hs.
    destruct (PM.find (b_cs a) (df_sts d)) as [q|]; [|discriminate]. cbn [bind] in Hs. dand.
    destruct (r_p r =? zlen text) eqn:Ep.
    - apply Z.eqb_eq in Ep. destruct (on_end x lang d q a) as [l|] eqn:Eo; [|discriminate].
      pose proof (end_ok _ _ _ _ _ Hi Ep Eo Hs) as HE. destruct o as [r'|r']; auto.
      destruct HE as (a' & Hin & Hi'). exists a'. split; auto.
      match goal with H : forallb (t_mem tb) l = true |- _ => rewrite forallb_forall in H; auto end.
    - apply Z.eqb_neq in Ep. unfold is_scan_start in Hs. rewrite Hscan in Hs. cbn [andb] in Hs. cbv zeta in Hs.
      assert (Hrp : r_p (if Pos.eqb (b_cs a) (df_start d) then set_ts (Some (r_p r)) r else r) = r_p r)
        by (destruct (Pos.eqb _ _); reflexivity).
      rewrite Hrp in Hs. destruct (src text (r_p r)) as [c| |] eqn:Ec; cbn [bind] in Hs; try discriminate.
      destruct (PM.find (Z.to_pos (c + 1)) (m_class m)) as [cl|] eqn:Ecl; [|discriminate Hs]. cbn [bind] in Hs.
      destruct (nth_error (q_row q) cl) as [br|] eqn:Ebr; [|discriminate Hs]. cbn [bind] in Hs.
      destruct (select text br _) as [e| |] eqn:Ese in Hs; cbn [bind] in Hs; try discriminate.
      destruct (exec_instrs m text d (e_ins e) _) as [[r2 j]| |] eqn:Ex in Hs; cbn [bind] in Hs; try discriminate.
      assert (Hin : In c bs).
      { apply Hbytes. unfold src in Ec. destruct (r_p r <? 0); [discriminate|].
        destruct (nth_error text (Z.to_nat (r_p r))) eqn:En; [injection Ec as <-; eapply nth_error_In; eauto|].
        apply Z.eqb_neq in Ep. rewrite Ep in Ec. discriminate. }
      match goal with H : forallb _ bs = true |- _ => rewrite forallb_forall in H; specialize (H _ Hin); rename H into Hc end.
      destruct (on_byte x lang m d q a c) as [l|] eqn:Eon; [|discriminate].
      destruct (byte_ok _ _ _ _ _ _ _ _ _ _ _ _ Hi Ep Ec Ecl Ebr Eon eq_refl Ese Ex Hs) as (a' & r' & -> & Hal & Hi').
      exists a'. split; auto. rewrite forallb_forall in Hc. auto.
  Qed.

  Lemma step_null r : good r -> no_null (step m text r).
  Proof.
    intros (a & Ha & Hi). pose proof (Htb _ Ha) as Hck. unfold check_state in Hck.
    assert (Hcs : r_cs r = Some (O, b_cs a)) by (destruct Hi as (_ & L & b & H); apply (R_cs _ _ _ _ _ _ H)).
    unfold step. rewrite Hcs. unfold dfa_of. rewrite Hd. cbn [bind]. unfold state_of.
    destruct (PM.find (b_cs a) (df_sts d)) as [q|]; [|discriminate]. cbn [bind]. dand.
    destruct (r_p r =? zlen text) eqn:Ep.
    - apply Z.eqb_eq in Ep. destruct (on_end x lang d q a) as [l|] eqn:Eo; [|discriminate].
      exact (end_null _ _ _ _ Hi Ep Eo).
    - apply Z.eqb_neq in Ep. unfold is_scan_start. rewrite Hscan. cbn [andb]. cbv zeta.
      assert (Hrp : r_p (if Pos.eqb (b_cs a) (df_start d) then set_ts (Some (r_p r)) r else r) = r_p r)
        by (destruct (Pos.eqb _ _); reflexivity).
      rewrite Hrp. destruct (src text (r_p r)) as [c|u|] eqn:Ec; cbn [bind]; [| |discriminate].
      2:{ unfold src in Ec. destruct (r_p r <? 0); [congruence|]. destruct (nth_error text (Z.to_nat (r_p r))); [discriminate|].
          destruct (_ =? _); congruence. }
      destruct (PM.find (Z.to_pos (c + 1)) (m_class m)) as [cl|] eqn:Ecl; [|discriminate]. cbn [bind].
      destruct (nth_error (q_row q) cl) as [br|] eqn:Ebr; [|discriminate]. cbn [bind].
      assert (Hin : In c bs).
      { apply Hbytes. unfold src in Ec. destruct (r_p r <? 0); [discriminate|].
        destruct (nth_error text (Z.to_nat (r_p r))) eqn:En; [injection Ec as <-; eapply nth_error_In; eauto|].
        apply Z.eqb_neq in Ep. rewrite Ep in Ec. discriminate. }
      match goal with H : forallb _ bs = true |- _ => rewrite forallb_forall in H; specialize (H _ Hin); rename H into Hc end.
      destruct (on_byte x lang m d q a c) as [l|] eqn:Eon; [|discriminate].
      apply no_null_bind; [apply select_null|]. intros e Ese. apply no_null_bind; [|intros [r2 j] _; apply again_null].
      exact (byte_null _ _ _ _ _ _ _ _ _ Hi Ep Ec Ecl Ebr Eon eq_refl Ese).
  Qed.

  Lemma loop_null fuel : forall r, good r -> no_null (loop m text fuel r).
  Proof.
    induction fuel as [|fuel IH]; cbn [loop]; intros r Hg; [discriminate|]. apply no_null_bind; [apply step_null; auto|].
    intros o Es. pose proof (step_ok _ _ Hg Es) as H. destruct o; [auto|apply no_null_ok].
  Qed.

  Lemma loop_ok fuel : forall r r', good r -> loop m text fuel r = Ok r' -> done r'.
  Proof.
    induction fuel as [|fuel IH]; cbn [loop]; intros r r' Hg Hl; [discriminate Hl|].
    destruct (step m text r) as [o| |] eqn:Es; cbn [bind] in Hl; try discriminate Hl.
    pose proof (step_ok _ _ Hg Es) as H. destruct o as [r1|r1]; [eauto|]. injection Hl as <-. exact H.
  Qed.

  Lemma start_ok r : Acc x lang Out 0 0 (fresh true) text total -> t_mem tb (start_state d) = true ->
    start m = Ok r -> good r.
  Proof.
    intros HA Hm Hs. unfold start, entry, dfa_of in Hs. rewrite Hd in Hs. cbn [bind] in Hs. injection Hs as <-.
    exists (start_state d). split; auto. split; [reflexivity|]. exists 0, 0. cbn [b_cs start_state]. rewrite Pos.eqb_refl.
    constructor; cbn; auto; try lia; try discriminate.
    all: try (intros ? [= <-]; reflexivity).
    - exists text. split; [reflexivity|exact I].
    - exists Out, total. split; [exact (place_out x None (fresh true) text)|]. split; [discriminate|]. split; [exact HA|reflexivity].
  Qed.
End Sound.

(** ** The check *)
Lemma list_eqb_eq {A} (f : A -> A -> bool) : (forall x y, f x y = true -> x = y) ->
  forall l k, list_eqb f l k = true -> l = k.
Proof.
  intros Hf. induction l as [|y l IH]; destruct k as [|z k]; cbn; intros H; try discriminate; auto.
  apply andb_prop in H as [H1 H2]. f_equal; auto.
Qed.
Lemma oeqb_eq {A} (f : A -> A -> bool) : (forall x y, f x y = true -> x = y) ->
  forall a b, oeqb f a b = true -> a = b.
Proof. intros Hf [y|] [z|]; cbn; intros H; try discriminate; auto. f_equal; auto. Qed.
Lemma peqb_eq a b : peqb a b = true -> a = b.
Proof. destruct a, b. unfold peqb. cbn. intros H. dand. f_equal; apply eqb_prop; auto. Qed.
Lemma zeqb_eq a b : (a =? b) = true -> a = b.
Proof. apply Z.eqb_eq. Qed.
Lemma neqb_eq a b : Nat.eqb a b = true -> a = b.
Proof. apply Nat.eqb_eq. Qed.

Lemma try_eqb_eq a b : try_eqb a b = true -> a = b.
Proof.
  destruct a, b. unfold try_eqb. cbn. intros H. dand. f_equal.
  - apply neqb_eq; auto.
  - eapply list_eqb_eq; [apply zeqb_eq|auto].
  - eapply oeqb_eq; [apply zeqb_eq|auto].
  - eapply oeqb_eq; [apply zeqb_eq|auto].
  - apply peqb_eq; auto.
Qed.
Lemma saved_eqb_eq a b : saved_eqb a b = true -> a = b.
Proof. destruct a, b. unfold saved_eqb. cbn. intros H. dand. f_equal; apply eqb_prop; auto. Qed.

Lemma ast_eqb_eq a b : ast_eqb a b = true -> a = b.
Proof.
  destruct a as [x1 x2 x3 x4 x5 x6 x7 x8 x9 x10 x11 x12 x13 x14 x15 x16 [x17 x18]],
           b as [y1 y2 y3 y4 y5 y6 y7 y8 y9 y10 y11 y12 y13 y14 y15 y16 [y17 y18]].
  unfold ast_eqb. cbn -[try_eqb saved_eqb peqb list_eqb].
  intros H. dand.
  repeat match goal with
  | H : Pos.eqb _ _ = true |- _ => apply Pos.eqb_eq in H; subst
  | H : oeqb Z.eqb _ _ = true |- _ => apply (oeqb_eq _ zeqb_eq) in H; subst
  | H : oeqb Nat.eqb _ _ = true |- _ => apply (oeqb_eq _ neqb_eq) in H; subst
  | H : oeqb saved_eqb _ _ = true |- _ => apply (oeqb_eq _ saved_eqb_eq) in H; subst
  | H : oeqb try_eqb _ _ = true |- _ => apply (oeqb_eq _ try_eqb_eq) in H; subst
  | H : oeqb Bool.eqb _ _ = true |- _ => apply (oeqb_eq _ eqb_prop) in H; subst
  | H : list_eqb Z.eqb _ _ = true |- _ => apply (list_eqb_eq _ zeqb_eq) in H; subst
  | H : peqb _ _ = true |- _ => apply peqb_eq in H; subst
  | H : Bool.eqb _ _ = true |- _ => apply eqb_prop in H; subst
  end.
  assert (x9 = y9) as -> by (destruct x9, y9; try discriminate; f_equal; apply neqb_eq; auto).
  assert (x11 = y11) as -> by (destruct x11, y11; try discriminate; auto).
  match goal with H : oeqb _ x18 y18 = true |- _ => apply oeqb_eq in H end;
    [subst; reflexivity|]. intros [? ?] [? ?]. cbn. intros. dand. f_equal; apply zeqb_eq; auto.
Qed.

Lemma lex_check_parts x lang bs m tb : lex_check x lang bs m tb = true -> exists d,
  nth_error (m_dfas m) 0 = Some d /\ df_scan d = true /\ sane x = true /\ m_lang m = lang
  /\ t_mem tb (start_state d) = true /\ forall a, t_mem tb a = true -> check_state x lang bs m d tb a = true.
Proof.
  intros Hck. unfold lex_check in Hck. destruct (m_dfas m) as [|d l] eqn:Ed; [discriminate|]. dand.
  exists d. split; [reflexivity|]. split; [auto|]. split; [auto|]. split; [apply String.eqb_eq; auto|]. split; [auto|].
  intros a Ha. match goal with H : forallb _ (PM.elements tb) = true |- _ => rename H into Hall end.
  unfold t_mem in Ha. destruct (PM.find (key a) tb) as [k|] eqn:Ef; [|discriminate].
  apply existsb_exists in Ha as (b & Hb & Hab). apply ast_eqb_eq in Hab. subst b.
  rewrite forallb_forall in Hall. apply PM.find_2, PM.elements_1, SetoidList.InA_alt in Ef.
  destruct Ef as ([k1 k2] & Hk & Hin). destruct Hk as [Hk1 Hk2]. cbn in Hk1, Hk2. unfold PM.E.eq in *. subst k2.
  specialize (Hall _ Hin). cbn [snd] in Hall. rewrite forallb_forall in Hall.
  specialize (Hall _ Hb). dand. auto.
Qed.

Lemma lex_check_ok x lang bs m tb text fuel es l :
  lex_check x lang bs m tb = true ->
  (forall c, In c text -> In c bs) ->
  lex_lines x lang text = Some l ->
  parse m text fuel = Ok es -> es = l.
Proof.
  intros Hck Hby Hl Hp. destruct (lex_check_parts _ _ _ _ _ Hck) as (d & Hd & Hsc & Hcl & Hla & Hst & Htb).
  unfold parse in Hp. destruct (start m) as [r0| |] eqn:Es; cbn [bind] in Hp; try discriminate Hp.
  destruct (loop m text fuel r0) as [r1| |] eqn:El; cbn [bind] in Hp; try discriminate Hp.
  assert (HA : Acc x lang Out 0 0 (fresh true) text l) by (eexists; exact Hl).
  pose proof (start_ok x lang m text l d Hd tb r0 HA Hst Es) as Hg.
  destruct (loop_ok x lang m text l Hcl d Hd Hsc Hla bs tb Htb Hby fuel r0 r1 Hg El) as (r2 & E2 & Hout).
  rewrite E2 in Hp. cbn [bind] in Hp. injection Hp as <-. exact Hout.
Qed.

Lemma lex_check_null x lang bs m tb text fuel l :
  lex_check x lang bs m tb = true ->
  (forall c, In c text -> In c bs) ->
  lex_lines x lang text = Some l ->
  parse m text fuel <> Ub NullDeref.
Proof.
  intros Hck Hby Hl. destruct (lex_check_parts _ _ _ _ _ Hck) as (d & Hd & Hsc & Hcl & Hla & Hst & Htb).
  unfold parse. destruct (start m) as [r0|u|] eqn:Es; cbn [bind]; [| |discriminate].
  2:{ unfold start, entry, dfa_of in Es. rewrite Hd in Es. discriminate. }
  assert (HA : Acc x lang Out 0 0 (fresh true) text l) by (eexists; exact Hl).
  pose proof (start_ok x lang m text l d Hd tb r0 HA Hst Es) as Hg.
  pose proof (loop_null x lang m text l Hcl d Hd Hsc Hla bs tb Htb Hby fuel r0 Hg) as Hn.
  destruct (loop m text fuel r0) as [r1|u|] eqn:El; cbn [bind]; [|unfold no_null in Hn; congruence|discriminate].
  destruct (loop_ok x lang m text l Hcl d Hd Hsc Hla bs tb Htb Hby fuel r0 r1 Hg El) as (r2 & E2 & _).
  rewrite E2. discriminate.
Qed.
