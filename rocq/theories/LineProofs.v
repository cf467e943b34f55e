(** Soundness of the check of LineCheck.v. *)
From Coq Require Import ZArith String List Bool Lia.
From Verif Require Import Base ParsedModel RagelSyntax RagelBuild RagelRun LineSpec LineCheck.
Import ListNotations.
Open Scope Z_scope.

Ltac dand := repeat match goal with H : _ && _ = true |- _ => apply andb_prop in H; destruct H end.

Notation zlen l := (Z.of_nat (length l)).

(** ** Lines *)
Lemma first_line_cons b l : first_line (b :: l) =
  match line_end (b :: l) with
  | S k => ([], firstn (S k) (b :: l), skipn (S k) (b :: l))
  | O => let '(a, e, t) := first_line l in (b :: a, e, t)
  end.
Proof. reflexivity. Qed.

Lemma line_end_le l : (line_end l <= length l)%nat.
Proof.
  destruct l as [|b l]; cbn; [lia|]. destruct (_ || _); [lia|]. destruct (b =? 13); [|lia].
  destruct l as [|x l]; cbn; [lia|]. destruct (x =? 10); lia.
Qed.

Lemma first_line_app l : forall c e t, first_line l = (c, e, t) -> l = c ++ e ++ t.
Proof.
  induction l as [|b l IH]; intros c e t H.
  - cbn in H. injection H as <- <- <-. reflexivity.
  - rewrite first_line_cons in H. destruct (line_end (b :: l)) as [|k].
    + destruct (first_line l) as [[a e'] t']. injection H as <- <- <-. cbn. f_equal. auto.
    + injection H as <- <- <-. cbn [app]. symmetry. exact (firstn_skipn (S k) (b :: l)).
Qed.

(** What a byte in or just after the contents of the first line tells. *)
Definition at_byte (l c e t : list Z) (i : nat) (b : Z) : Prop :=
  if (b =? 10) || (b =? 12) then i = length c /\ e = [b]
  else if b =? 13 then
    match nth_error l (S i) with
    | None => S i = length c /\ nth_error c i = Some b /\ e = [] /\ t = []
    | Some d => i = length c /\ e = if d =? 10 then [b; d] else [b]
    end
  else (i < length c)%nat /\ nth_error c i = Some b.

Lemma first_line_at l : forall c e t i b, first_line l = (c, e, t) -> (i <= length c)%nat ->
  nth_error l i = Some b -> at_byte l c e t i b.
Proof.
  induction l as [|x l IH]; intros c e t i b H Hi Hb.
  - destruct i; discriminate.
  - rewrite first_line_cons in H. destruct (line_end (x :: l)) as [|k] eqn:El.
    + destruct (first_line l) as [[a e'] t'] eqn:E. injection H as <- <- <-.
      destruct i as [|i].
      * cbn in Hb. injection Hb as <-. unfold at_byte. cbn in El.
        destruct ((x =? 10) || (x =? 12)) eqn:E1; [discriminate|].
        destruct (x =? 13) eqn:E2; [|cbn; split; [lia|auto]].
        destruct l as [|d l]; [|destruct (d =? 10); discriminate].
        cbn in E. injection E as <- <- <-. cbn. auto.
      * cbn in Hb, Hi. specialize (IH _ _ _ i b eq_refl ltac:(lia) Hb).
        unfold at_byte in *. cbn [length nth_error].
        destruct ((b =? 10) || (b =? 12)); [destruct IH; split; [lia|auto]|].
        destruct (b =? 13).
        -- destruct l as [|y l]; [destruct i; discriminate|].
           cbn [nth_error] in IH |- *.
           destruct (nth_error l i); [destruct IH; split; [lia|auto]|intuition (auto; lia)].
        -- destruct IH; split; [lia|auto].
    + injection H as <- <- <-. cbn in Hi. assert (i = 0%nat) by lia. subst i.
      cbn in Hb. injection Hb as <-. unfold at_byte. cbn in El |- *.
      destruct ((x =? 10) || (x =? 12)) eqn:E1.
      * injection El as <-. cbn. auto.
      * destruct (x =? 13) eqn:E2; [|discriminate]. destruct l as [|d l]; [discriminate|].
        cbn. destruct (d =? 10); injection El as <-; cbn; auto.
Qed.

Lemma first_line_end l : forall c e t i, first_line l = (c, e, t) -> (i <= length c)%nat ->
  nth_error l i = None -> i = length c /\ e = [] /\ t = [].
Proof.
  intros c e t i H Hi Hn. pose proof (first_line_app _ _ _ _ H) as ->.
  apply nth_error_None in Hn. rewrite !app_length in Hn.
  assert (length e = 0 /\ length t = 0)%nat as [He Ht] by lia.
  destruct e, t; cbn in *; try lia. intuition lia.
Qed.

Lemma line_end_none_t l : forall c e t, first_line l = (c, e, t) -> e = [] -> t = [].
Proof.
  induction l as [|b l IH]; intros c e t H He.
  - cbn in H. injection H as <- <- <-. reflexivity.
  - rewrite first_line_cons in H. destruct (line_end (b :: l)) as [|k] eqn:El.
    + destruct (first_line l) as [[a e'] t']. injection H as <- <- <-. eauto.
    + injection H as <- <- <-. discriminate.
Qed.

Section Reports.
  Variable st : style.
  Variable lang : string.

  Lemma file_reports_fuel n : forall l pos k, (length l <= n)%nat -> (n <= k)%nat ->
    file_reports n st lang pos l = file_reports k st lang pos l.
  Proof.
    induction n; intros l pos k Hn Hk.
    - destruct l; [|cbn in Hn; lia]. destruct k; reflexivity.
    - destruct k as [|k]; [lia|]. cbn [file_reports]. destruct l as [|b l]; [reflexivity|].
      destruct (first_line (b :: l)) as [[c e] t] eqn:E. f_equal. apply IHn; [|lia].
      pose proof (first_line_app _ _ _ _ E) as Ea. apply (f_equal (@length Z)) in Ea.
      rewrite !app_length in Ea. cbn [length] in Ea, Hn.
      assert (c <> [] \/ e <> []).
      { destruct c; [|left; discriminate]. destruct e; [|right; discriminate].
        pose proof (line_end_none_t _ _ _ _ E eq_refl). subst t. cbn in Ea. lia. }
      destruct H; [destruct c|destruct e]; cbn in *; try congruence; lia.
  Qed.

  Definition F (pos : Z) (l : list Z) : list event := file_reports (length l) st lang pos l.

  Lemma F_step l pos c e t : first_line l = (c, e, t) ->
    F pos l = line_reports st lang pos c e ++ F (pos + Z.of_nat (length c + length e)) t.
  Proof.
    intros H. unfold F. destruct l as [|b l].
    - cbn in H. injection H as <- <- <-. reflexivity.
    - cbn [file_reports length]. rewrite H. f_equal.
      symmetry. apply file_reports_fuel; [lia|].
      pose proof (first_line_app _ _ _ _ H) as Ea. apply (f_equal (@length Z)) in Ea.
      rewrite !app_length in Ea. cbn [length] in Ea.
      assert (c <> [] \/ e <> []).
      { destruct c; [|left; discriminate]. destruct e; [|right; discriminate].
        pose proof (line_end_none_t _ _ _ _ H eq_refl). subst t. cbn in Ea. lia. }
      destruct H0; [destruct c|destruct e]; cbn in *; try congruence; lia.
  Qed.
End Reports.

(** ** Kinds *)
Lemma existsb_app' {A} (f : A -> bool) l k : existsb f (l ++ k) = existsb f l || existsb f k.
Proof. induction l; cbn; auto. rewrite IHl. destruct (f a); auto. Qed.

Lemma starts_deriv p c s : starts p (c :: s) = existsb (fun q => starts q s) (deriv1 c p).
Proof.
  destruct p as [|[cs|cs] p]; cbn.
  - destruct s; reflexivity.
  - destruct (among c cs); cbn; auto. destruct (starts p s); auto.
  - destruct (among c cs); cbn; auto. destruct (starts p s); cbn; auto.
    destruct s; cbn; auto. destruct (among z cs && _); auto.
Qed.

Lemma starts_any_deriv ps c s :
  existsb (fun p => starts p (c :: s)) ps = existsb (fun q => starts q s) (flat_map (deriv1 c) ps).
Proof.
  induction ps; cbn [existsb flat_map]; auto. rewrite existsb_app', IHps, starts_deriv. reflexivity.
Qed.

Definition phase_kind (ph : phase) (s : list Z) : kind :=
  match ph with PBlank => Blank | PRest r => text_kind r s | PKnown k => k end.

Lemma starts_nil s : starts [] s = true.
Proof. destruct s; reflexivity. Qed.

Lemma deriv_ok r c s : text_kind r (c :: s) = phase_kind (deriv r c) s.
Proof.
  destruct r as [ps|cs]; cbn [text_kind deriv].
  - rewrite starts_any_deriv. set (qs := flat_map (deriv1 c) ps).
    destruct (existsb is_nil qs) eqn:E.
    + cbn. apply existsb_exists in E. destruct E as (q & Hq & Hn). destruct q; [|discriminate].
      assert (existsb (fun q => starts q s) qs = true) as ->; auto.
      apply existsb_exists. exists []. split; auto. apply starts_nil.
    + destruct qs; cbn; auto.
  - cbn. destruct (among c cs); cbn; auto.
Qed.

Lemma deriv_not_blank r c : deriv r c <> PBlank.
Proof.
  destruct r; cbn; [destruct (existsb _ _); [discriminate|destruct (flat_map _ _); discriminate]|].
  destruct (among c cs); discriminate.
Qed.

(** No line end in the sets that are left. *)
Definition clean_rule (r : rule) : bool :=
  match r with
  | Opens ps => forallb (forallb clean_item) ps
  | Operators cs => clean_set cs
  end.
Definition clean_phase (ph : phase) : bool := match ph with PRest r => clean_rule r | _ => true end.

Lemma clean_deriv1 c p : forallb clean_item p = true -> forallb (forallb clean_item) (deriv1 c p) = true.
Proof.
  destruct p as [|[cs|cs] p]; cbn; auto; intros H; apply andb_prop in H as [H1 H2];
    destruct (among c cs); cbn; rewrite ?H1, ?H2; auto.
Qed.

Lemma clean_deriv r c : clean_rule r = true -> clean_phase (deriv r c) = true.
Proof.
  destruct r as [ps|cs]; cbn [clean_rule deriv].
  - intros H. destruct (existsb is_nil _); auto.
    assert (Hq : forallb (forallb clean_item) (flat_map (deriv1 c) ps) = true).
    { induction ps; cbn in *; auto. apply andb_prop in H as [H1 H2]. rewrite forallb_app, clean_deriv1, IHps; auto. }
    destruct (flat_map (deriv1 c) ps); auto.
  - intros H. destruct (among c cs); auto.
Qed.

Lemma among_in c s : among c s = true <-> In c s.
Proof.
  unfold among. rewrite existsb_exists. split.
  - intros (x & H & E). apply Z.eqb_eq in E. subst. auto.
  - intros H. exists c. split; auto. apply Z.eqb_refl.
Qed.

Lemma clean_set_13 s : clean_set s = true -> among 13 s = false.
Proof. unfold clean_set. intros. dand. destruct (among 13 s); auto. Qed.

Lemma starts_13 p s : forallb clean_item p = true -> starts p (13 :: s) = is_nil p.
Proof.
  destruct p as [|[cs|cs] p]; cbn; auto; intros H; dand; rewrite clean_set_13; auto.
Qed.

Lemma fin_nil r : text_kind r [] = fin r.
Proof.
  destruct r as [ps|cs]; cbn [text_kind fin]; auto.
  assert (existsb (fun p => starts p []) ps = existsb is_nil ps) as ->; auto.
  induction ps as [|p ps IH]; cbn [existsb]; auto. rewrite IH. f_equal. destruct p as [|[]]; reflexivity.
Qed.

Lemma fin_13 r : clean_rule r = true -> text_kind r [13] = fin r.
Proof.
  destruct r as [ps|cs]; cbn [text_kind fin clean_rule]; intros H.
  - assert (existsb (fun p => starts p [13]) ps = existsb is_nil ps) as ->; auto.
    induction ps as [|p ps IH]; cbn [existsb forallb] in *; auto. dand. rewrite IH, starts_13; auto.
  - cbn. rewrite clean_set_13; auto.
Qed.

(** ** What is known about the line *)
Section Sound.
  Variable st : style.
  Variable lang : string.
  Variable m : machine.
  Variable text : list Z.

  Definition ph_ok (ph : phase) (c : list Z) (i : nat) : Prop :=
    match ph with
    | PBlank => Forall (fun b => among b (st_lead st) = true) (firstn i c)
    | _ => clean_phase ph = true /\ line_kind st c = phase_kind ph (skipn i c)
    end.

  Lemma ph_known k c i : line_kind st c = k -> ph_ok (PKnown k) c i.
  Proof. cbn. auto. Qed.

  Lemma strip_app lead a b : Forall (fun x => among x lead = true) a -> strip lead (a ++ b) = strip lead b.
  Proof. induction 1; cbn; auto. rewrite H. auto. Qed.

  Lemma nth_split {A} (l : list A) : forall i x, nth_error l i = Some x -> skipn i l = x :: skipn (S i) l.
  Proof. induction l; destruct i; cbn; intros; try discriminate; [congruence|]. rewrite (IHl i x); auto. Qed.

  Lemma firstn_S {A} (l : list A) : forall i x, nth_error l i = Some x -> firstn (S i) l = firstn i l ++ [x].
  Proof.
    induction l; destruct i; cbn [nth_error]; intros x H; try discriminate; [injection H as <-; reflexivity|].
    change (firstn (S (S i)) (a :: l)) with (a :: firstn (S i) l). rewrite (IHl i x); auto.
  Qed.

  Lemma among_more b lead : among b lead = true -> among b (13 :: lead) = true.
  Proof. intros H. unfold among in *. cbn. rewrite H. apply orb_true_r. Qed.

  Hypothesis Hclean : clean st = true.

  Lemma rule_clean : clean_rule (st_rule st) = true.
  Proof.
    unfold clean in Hclean. dand. destruct (st_rule st) as [ps|cs]; cbn; auto.
    rewrite forallb_forall in *. intros p Hp. specialize (H0 p Hp). dand. auto.
  Qed.

  Lemma ph_advance ph c i b : nth_error c i = Some b -> b <> 13 -> ph_ok ph c i -> ph_ok (advance st ph b) c (S i).
  Proof.
    intros Hn Hb H. destruct ph as [|r|k]; cbn [advance].
    - cbn in H. destruct (among b (st_lead st)) eqn:E.
      + unfold ph_ok. rewrite (firstn_S _ _ _ Hn). apply Forall_app. auto.
      + pose proof (clean_deriv (st_rule st) b rule_clean) as Hc.
        assert (Hk : line_kind st c = phase_kind (deriv (st_rule st) b) (skipn (S i) c)).
        { unfold line_kind.
          replace (strip (13 :: st_lead st) c) with (strip (13 :: st_lead st) (b :: skipn (S i) c)).
          2: { rewrite <- (nth_split _ _ _ Hn). rewrite <- (firstn_skipn i c) at 2. symmetry. apply strip_app.
               eapply Forall_impl; [|exact H]; cbn beta; intros; apply among_more; auto. }
          replace (strip (st_lead st) c) with (strip (st_lead st) (b :: skipn (S i) c)).
          2: { rewrite <- (nth_split _ _ _ Hn). rewrite <- (firstn_skipn i c) at 2. symmetry. apply strip_app. auto. }
          cbn [strip].
          assert (among b (13 :: st_lead st) = false) as ->.
          { unfold among in *. cbn. rewrite E. destruct (Z.eqb_spec b 13); auto; lia. }
          rewrite E. apply deriv_ok. }
        pose proof (deriv_not_blank (st_rule st) b). destruct (deriv (st_rule st) b); cbn; auto; congruence.
    - cbn [ph_ok phase_kind clean_phase] in H. destruct H as [Hc H]. pose proof (clean_deriv r b Hc) as Hc'.
      rewrite (nth_split _ _ _ Hn), deriv_ok in H.
      pose proof (deriv_not_blank r b). destruct (deriv r b); cbn in *; auto; congruence.
    - exact H.
  Qed.

  Definition line_done (c : list Z) (i : nat) : Prop :=
    i = length c \/ (S i = length c /\ nth_error c i = Some 13).

  Lemma ph_decide ph c i : ph_ok ph c i -> line_done c i -> line_kind st c = decide ph.
  Proof.
    intros H Hd. destruct ph as [|r|k]; cbn [decide].
    - cbn in H. unfold line_kind.
      assert (strip (13 :: st_lead st) c = []) as ->; auto.
      rewrite <- (firstn_skipn i c).
      rewrite strip_app by (eapply Forall_impl; [|exact H]; cbn beta; intros; apply among_more; auto).
      destruct Hd as [->|[Hl Hn]].
      + rewrite skipn_all. reflexivity.
      + rewrite (nth_split _ _ _ Hn), Hl, skipn_all. reflexivity.
    - cbn [ph_ok phase_kind clean_phase] in H. destruct H as [Hc ->]. destruct Hd as [->|[Hl Hn]].
      + rewrite skipn_all. apply fin_nil.
      + rewrite (nth_split _ _ _ Hn), Hl, skipn_all. apply fin_13; auto.
    - apply H.
  Qed.

  Lemma ph_blank_shorter c i j : (j <= i)%nat -> ph_ok PBlank c i -> ph_ok PBlank c j.
  Proof.
    cbn. intros Hj H. rewrite <- (Nat.min_l j i Hj), <- firstn_firstn.
    rewrite <- (firstn_skipn j (firstn i c)) in H. apply Forall_app in H as [H _]. exact H.
  Qed.

  (** ** Inside a step *)
  Section InStep.
    Variable L : Z.
    Variables c e : list Z.
    Variables p0 t0 : Z.
    Variable out0 : list event.
    Variable to : positive.
    Variable md : mode.
    Variable k : option kind.

    Notation n := (zlen c).
    Notation eoff := (L + zlen c + zlen e).

    Hypothesis Hk : match k with Some x => md = NL \/ md = After -> line_kind st c = x | None => True end.
    Hypothesis Ht0 : L <= t0 <= p0.
    Hypothesis Hmd : match md with
                     | NL => t0 = L + n /\ p0 + 1 = eoff /\ e <> []
                     | After => t0 = L + n /\ p0 = eoff /\ e <> []
                     | _ => True
                     end.

    Definition inq_ok (q : option (bool * bool * bool)) (r : rt) : Prop :=
      match q with
      | None => r_inq r = false
      | Some (x, w, s) =>
        r_inq r = true /\ r_last_lcc r = x /\ r_last_wlc r = w /\ r_last_ls r = (if s then Some L else None)
        /\ (s = false -> t0 = L)
      end.

    Definition te_ok (t : tep) (r : rt) : Prop :=
      match t with
      | TeNone => True
      | TeOld => exists v, r_te r = Some v /\ t0 <= v <= p0
      | TeP => r_te r = Some p0
      | TeNew => r_te r = Some (p0 + 1)
      end.
    Definition pos_ok (x : pos) (r : rt) : Prop :=
      match x with
      | Cur => r_p r = p0
      | Back => r_p r = p0 - 1
      | AtTe => exists v, r_te r = Some v /\ t0 <= v <= p0 /\ r_p r = v - 1
      end.

    Record rel (x : wst) (r : rt) : Prop := mkRel {
      R_cs : r_cs r = Some (0%nat, to);
      R_q : r_queue r = [];
      R_ts : r_ts r = Some t0;
      R_ent : match w_ent x with Some v => r_ent r = v | None => True end;
      R_act : r_act r = w_act x;
      R_inq : inq_ok (w_inq x) r;
      R_te : te_ok (w_te x) r;
      R_pos : pos_ok (w_pos x) r;
      R_lcc : r_lcc r = w_lcc x;
      R_wlc : r_wlc r = w_wlc x;
      R_ls : if w_nl x then r_ls r = None /\ r_lcc r = false /\ r_wlc r = false
             else r_ls r = (if w_ls x then Some L else None) /\ (w_ls x = false -> t0 = L);
      R_out : r_out r = (if w_nl x then rev (line_reports st lang L c e) ++ out0 else out0) }.

    Lemma rel_dequeue x r : w_nl x = false -> rel x r -> rel (k_dequeue x) (dequeue r).
    Proof.
      intros Hnl [? ? ? ? ? Hq ? ? ? ? ? ?]. unfold k_dequeue, dequeue.
      destruct (w_inq x) as [[[a b] s]|] eqn:E; cbn in Hq.
      - destruct Hq as (-> & Ha & Hb & Hs & Hf). constructor; cbn; auto. rewrite Hnl. auto.
      - rewrite Hq. constructor; auto. rewrite E. auto.
    Qed.

    Lemma dequeue_nl x : w_nl (k_dequeue x) = w_nl x.
    Proof. unfold k_dequeue. destruct (w_inq x) as [[[]]|]; reflexivity. Qed.

    Lemma rel_ls x r : w_nl x = false -> rel x r -> rel (k_ls x) (do_ls r).
    Proof.
      intros Hnl [? ? Hts ? ? Hq ? ? ? ? Hls Hout]. rewrite Hnl in *. destruct Hls as [Hls Hf].
      constructor; cbn; auto; rewrite Hnl; auto. split; [|discriminate].
      rewrite Hls, Hts. destruct (w_ls x); auto. cbn. f_equal. auto.
    Qed.

    Lemma rel_code x r : w_nl x = false -> rel x r -> rel (k_code x) (do_code r).
    Proof.
      intros Hnl [? ? Hts ? ? Hq ? ? Hlcc ? Hls Hout]. rewrite Hnl in *. destruct Hls as [Hls Hf].
      constructor; cbn; auto; rewrite Hnl; auto.
      rewrite Hls, Hts, Hlcc. destruct (w_ls x), (w_lcc x); cbn; split; auto; try discriminate. f_equal. auto.
    Qed.

    Lemma rel_comment x r : w_nl x = false -> rel x r -> rel (k_comment x) (do_comment r).
    Proof.
      intros Hnl [? ? Hts ? ? Hq ? ? Hlcc ? Hls Hout]. unfold k_comment, do_comment. rewrite Hlcc.
      destruct (w_lcc x) eqn:El.
      { constructor; auto. congruence. }
      rewrite Hnl in *. destruct Hls as [Hls Hf].
      constructor; cbn; auto; rewrite Hnl; auto. split; [|discriminate].
      rewrite Hls, Hts. destruct (w_ls x); auto. cbn. f_equal. auto.
    Qed.

    Lemma kind_eqb_eq a b : kind_eqb a b = true -> a = b.
    Proof. destruct a, b; cbn; auto; discriminate. Qed.

    Lemma kind_flags r : RagelRun.kind r = kind_name (flag_kind (r_lcc r) (r_wlc r)).
    Proof. unfold RagelRun.kind, flag_kind. destruct (r_lcc r), (r_wlc r); reflexivity. Qed.

    Lemma zlen_pos {A} (l : list A) : l <> [] -> 0 < zlen l.
    Proof. destruct l; cbn; [congruence|lia]. Qed.

    Lemma rel_nl l x y r : w_nl x = false -> rel x r -> k_nl lang md k l x = Some y ->
      exists r', std_newline l r = Ok r' /\ rel y r'.
    Proof.
      intros Hnl H Hy. apply rel_dequeue in H; auto. pose proof (dequeue_nl x) as Hd. rewrite Hnl in Hd.
      unfold k_nl in Hy. unfold std_newline. set (r1 := dequeue r) in *. set (x1 := k_dequeue x) in *.
      cbv zeta in *. clearbody r1 x1. clear r x Hnl.
      assert (exists kd, k = Some kd /\ (md = NL \/ md = After) /\ r_te r1 = Some eoff /\ t0 = L + n /\ e <> []
              /\ y = v_nl x1 /\ l = lang /\ flag_kind (w_lcc x1) (w_wlc x1) = kd
              /\ w_ls x1 || negb (w_lcc x1 || w_wlc x1) = true) as (kd & -> & Hm & Hte & Hts' & He & -> & -> & Hf & Hw).
      { destruct H as [? ? ? ? ? ? Hte ? ? ? ? ?].
        destruct md; try discriminate; destruct (w_te x1); try discriminate; destruct k as [kd|]; try discriminate;
          (destruct (String.eqb l lang && negb (w_nl x1) && kind_eqb (flag_kind (w_lcc x1) (w_wlc x1)) kd
                  && (w_ls x1 || negb (w_lcc x1 || w_wlc x1))) eqn:E; [|discriminate];
           injection Hy as <-; dand; exists kd; cbn in Hte;
           destruct Hmd as (A & B & C); split; [auto|]; split; [auto|]; split; [congruence|];
           split; [auto|]; split; [auto|]; split; [auto|]; split; [apply String.eqb_eq; auto|];
           split; [apply kind_eqb_eq; auto|auto]). }
      specialize (Hk Hm). destruct H as [? ? Hts ? ? Hq ? ? Hlcc Hwlc Hls Hout]. rewrite Hd in *.
      destruct Hls as [Hls Hff]. pose proof (zlen_pos e He).
      assert (Hgt : ptr_gt (r_te r1) (r_ls r1) = true).
      { rewrite Hte, Hls. destruct (w_ls x1); cbn; auto. apply Z.ltb_lt. lia. }
      rewrite Hgt.
      assert (Hev : callback lang (RagelRun.kind r1) (if r_lcc r1 || r_wlc r1 then r_ls r1 else r_ts r1) (r_te r1) r1
                    = Ok (set_out (rev (line_reports st lang L c e) ++ r_out r1) r1)).
      { unfold callback, line_reports. rewrite kind_flags, Hlcc, Hwlc, Hte, Hts, Hls, Hk, <- Hf.
        clear Hout. generalize (r_out r1). intros o.
        destruct (w_lcc x1), (w_wlc x1), (w_ls x1); cbn in Hw; try discriminate;
          cbn [flag_kind kind_name orb cint bind];
          (replace (match e with [] => [] | _ :: _ => [mkEvent lang "lblank" (L + n) (L + Z.of_nat (length c + length e))] end)
             with [mkEvent lang "lblank" (L + n) (L + Z.of_nat (length c + length e))] by (destruct e; congruence));
          cbn [rev app];
          match goal with
          |- Ok (set_out (mkEvent _ _ ?a ?b :: _) _) = Ok (set_out (mkEvent _ _ ?a' ?b' :: _) _) =>
            replace b' with b by lia; replace a' with a by lia; reflexivity
          end. }
      rewrite Hev. cbn [bind]. eexists. split; [reflexivity|].
      constructor; cbn; auto.
      - f_equal; auto.
    Qed.

    Lemma rel_macro mc x y r : rel x r -> k_macro lang md k mc x = Some y ->
      exists r', exec_macro text mc r = Ok r' /\ rel y r'.
    Proof.
      intros H Hy. unfold k_macro in Hy. destruct (w_nl x) eqn:Hnl; [discriminate|].
      pose proof (rel_dequeue x r Hnl H) as Hd. assert (w_nl (k_dequeue x) = false) by (rewrite dequeue_nl; auto).
      destruct mc; try discriminate; cbn [exec_macro]; try (injection Hy as <-; eexists; split; [reflexivity|]).
      - apply rel_ls; auto.
      - apply rel_code; auto.
      - apply rel_comment; auto.
      - exact (rel_nl _ _ _ _ Hnl H Hy).
    Qed.

    Lemma rel_switch l x y v r : rel x r -> w_ent x = Some v -> k_switch lang md k l v x = Some y ->
      exists r', switch text l r = Ok r' /\ rel y r'.
    Proof.
      intros H Hv. pose proof (R_ent _ _ H) as He. rewrite Hv in He.
      induction l as [|[f mc] l IH]; cbn; intros Hy.
      - injection Hy as <-. eauto.
      - rewrite He. destruct (v =? f); [eapply rel_macro; eauto|auto].
    Qed.

    Lemma rel_stmt s x y r : rel x r -> k_stmt lang md k s x = Some y ->
      exists r', exec_stmt m text s r = Ok (r', false) /\ rel y r'.
    Proof.
      intros H Hy. unfold k_stmt in Hy. destruct (w_nl x) eqn:Hnl; [discriminate|].
      destruct s; try discriminate; cbn [exec_stmt].
      - injection Hy as <-. eexists; split; [reflexivity|]. destruct H. constructor; cbn; auto.
      - destruct (w_ent x) as [v|] eqn:Ev; [|discriminate].
        destruct (rel_switch _ _ _ _ _ H Ev Hy) as (r' & -> & Hr'). cbn. eauto.
      - injection Hy as <-. eexists; split; [reflexivity|]. apply rel_code; auto.
      - injection Hy as <-. eexists; split; [reflexivity|]. apply rel_comment; auto.
      - injection Hy as <-. eexists; split; [reflexivity|]. apply rel_ls; auto.
      - injection Hy as <-. eexists; split; [reflexivity|].
        destruct H as [? ? ? ? ? ? ? ? ? ? Hls ?]. rewrite Hnl in *. destruct Hls.
        constructor; cbn; auto; rewrite ?Hnl; auto.
      - injection Hy as <-. eexists; split; [reflexivity|].
        destruct H as [? Hqu ? ? ? Hq ? ? ? ? Hls ?]. destruct (r_inq r) eqn:Ei.
        + constructor; cbn; auto. rewrite Hqu. auto.
        + constructor; cbn; auto.
      - destruct (w_pos x) eqn:Ep; try discriminate. injection Hy as <-. eexists; split; [reflexivity|].
        destruct H as [? ? ? ? ? ? ? Hp ? ? ? ?]. rewrite Ep in Hp. cbn in Hp.
        constructor; cbn; auto. rewrite Hp. reflexivity.
    Qed.

    Lemma rel_body l : forall x y r, rel x r -> k_body lang md k l x = Some y ->
      exists r', exec_body m text l r = Ok (r', false) /\ rel y r'.
    Proof.
      induction l as [|s l IH]; cbn [k_body exec_body]; intros x y r H Hy.
      - injection Hy as <-. eauto.
      - destruct (k_stmt lang md k s x) as [z|] eqn:E; [|discriminate].
        destruct (rel_stmt _ _ _ _ H E) as (r' & -> & Hr'). cbn. eauto.
    Qed.

    Lemma rel_part d i x y r : rel x r -> k_part lang md k d i x = Some y ->
      exists r', exec_part m text d i r = Ok (r', false) /\ rel y r'.
    Proof.
      unfold k_part, exec_part. intros H Hy. destruct (nth_error (df_parts d) i) as [[a|]|]; [| |discriminate].
      - eapply rel_body; eauto.
      - injection Hy as <-. eauto.
    Qed.

    Lemma rel_instr d i x y r : rel x r -> k_instr lang md k d i x = Some y ->
      exists r', exec_instr m text d i r = Ok (r', false) /\ rel y r'.
    Proof.
      intros H Hy. unfold k_instr in Hy. destruct (w_nl x) eqn:Hnl; [discriminate|].
      pose proof (R_pos _ _ H) as Hp. pose proof (R_te _ _ H) as Ht. pose proof (R_act _ _ H) as Ha.
      destruct i; cbn [exec_instr].
      - eapply rel_body; eauto.
      - destruct md; try discriminate; destruct (w_pos x); try discriminate; injection Hy as <-;
          (eexists; split; [reflexivity|]; destruct H; constructor; cbn in *; auto; f_equal; lia).
      - injection Hy as <-. eexists; split; [reflexivity|]. destruct H; constructor; cbn; auto.
      - assert (w_pos x = Cur /\ k_part lang md k d i (v_te TeNew Cur x) = Some y) as [Ec Hy'].
        { destruct md; try discriminate; destruct (w_pos x); try discriminate; auto. }
        rewrite Ec in Hp. eapply rel_part; [|exact Hy']. destruct H; constructor; cbn in *; auto. f_equal; lia.
      - assert (w_pos x = Cur /\ k_part lang md k d i (v_te TeP Back x) = Some y) as [Ec Hy'].
        { destruct md; try discriminate; destruct (w_pos x); try discriminate; auto. }
        rewrite Ec in Hp. eapply rel_part; [|exact Hy']. destruct H; constructor; cbn in *; auto; [f_equal; lia|lia].
      - destruct (w_te x); try discriminate. cbn in Ht. destruct Ht as (v & Ev & Hv). rewrite Ev. cbn [cint bind].
        eapply rel_part; [|exact Hy]. destruct H; constructor; cbn in *; auto; eauto.
      - destruct (w_act x) as [i|] eqn:Eact; [|discriminate]. destruct (w_te x); try discriminate. cbn in Ht.
        destruct Ht as (v & Ev & Hv). rewrite Ha, Ev. cbn [cint bind].
        eapply rel_part; [|exact Hy]. destruct H; constructor; cbn in *; auto; eauto; congruence.
    Qed.

    Lemma rel_instrs d l : forall x y r, rel x r -> k_instrs lang md k d l x = Some y ->
      exists r', exec_instrs m text d l r = Ok (r', false) /\ rel y r'.
    Proof.
      induction l as [|s l IH]; cbn [k_instrs exec_instrs]; intros x y r H Hy.
      - injection Hy as <-. eauto.
      - destruct (k_instr lang md k d s x) as [z|] eqn:E; [|discriminate].
        destruct (rel_instr _ _ _ _ _ H E) as (r' & -> & Hr'). cbn. eauto.
    Qed.
  End InStep.

  (** ** Between steps *)
  Variable d : dfa.
  Hypothesis Hd : nth_error (m_dfas m) 0 = Some d.
  Hypothesis Hscan : df_scan d = true.
  Hypothesis Hlang : m_lang m = lang.

  Notation rest L := (skipn (Z.to_nat L) text).
  Notation at_ p := (nth_error text (Z.to_nat p)).

  Definition cr_ok (cr : crs) (L : Z) (c e : list Z) (p : Z) : Prop :=
    match cr with
    | CNo => p <= L + zlen c
    | CLone => p = L + zlen c + 1 /\ e = [13] /\ exists b, at_ p = Some b /\ b <> 10
    | CMore => (p = L + zlen c /\ p = zlen text) \/ (p = L + zlen c + 1 /\ e = [13; 10] /\ at_ p = Some 10)
    end.
  Definition nx_ok (nx : nxt) (p : Z) : Prop :=
    match nx with
    | NAny => True
    | NClass n => exists b, at_ p = Some b /\ PM.find (Z.to_pos (b + 1)) (m_class m) = Some n
    | NEnd => p = zlen text
    end.

  Record inv (a : ast) (r : rt) (L : Z) (c e t : list Z) : Prop := mkInv {
    I_L : 0 <= L;
    I_line : first_line (rest L) = (c, e, t);
    I_F : F st lang 0 text = rev (r_out r) ++ F st lang L (rest L);
    I_p : L <= r_p r;
    I_cr : cr_ok (a_cr a) L c e (r_p r);
    I_ph : ph_ok (a_ph a) c (Z.to_nat (r_p r - L));
    I_nx : nx_ok (a_nx a) (r_p r);
    I_cs : r_cs r = Some (0%nat, a_cs a);
    I_q : r_queue r = [];
    I_ent : match a_ent a with Some v => r_ent r = v | None => True end;
    I_act : r_act r = a_act a;
    I_lcc : r_lcc r = a_lcc a;
    I_wlc : r_wlc r = a_wlc a;
    I_ls : r_ls r = if a_ls a then Some L else None;
    I_tok : if Pos.eqb (a_cs a) (df_start d)
            then (a_ls a = false -> r_p r = L) /\ a_inq a = None /\ a_te a = false /\ a_cr a = CNo /\ r_inq r = false
            else exists t0, r_ts r = Some t0 /\ L <= t0 <= r_p r /\ (a_ls a = false -> t0 = L)
                 /\ (a_cr a <> CNo -> t0 = r_p r - 1) /\ inq_ok L t0 (a_inq a) r
                 /\ (a_te a = true -> exists v, r_te r = Some v /\ t0 <= v <= r_p r) }.

  (** The line stays the same, or the next line is about to be read. *)
  Definition moved (L : Z) (c e : list Z) (L' : Z) (b : ast) (r' : rt) : Prop :=
    L' = L \/ (L' = L + zlen c + zlen e /\ r_p r' = L' /\ a_cs b = df_start d /\ a_lcc b = false /\ a_wlc b = false).

  Definition mode_ok (md : mode) (cr : crs) (L : Z) (c e : list Z) (p0 t0 : Z) : Prop :=
    match md with
    | Txt => p0 < L + zlen c
    | Stp => p0 <= L + zlen c
    | CR => t0 = p0 /\ cr_ok cr L c e (p0 + 1)
    | NL => t0 = L + zlen c /\ p0 + 1 = L + zlen c + zlen e /\ e <> []
    | After => t0 = L + zlen c /\ p0 = L + zlen c + zlen e /\ e <> []
    end.

  Lemma skipn_add {A} (l : list A) i j : skipn (i + j) l = skipn j (skipn i l).
  Proof. revert l. induction i; intros [|x l]; cbn; auto. rewrite skipn_nil. reflexivity. Qed.

  Lemma rest_next L c e t : 0 <= L -> first_line (rest L) = (c, e, t) -> rest (L + zlen c + zlen e) = t.
  Proof.
    intros HL H. apply first_line_app in H. replace (Z.to_nat (L + zlen c + zlen e)) with (Z.to_nat L + (length c + length e))%nat by lia.
    rewrite skipn_add, H, app_assoc. rewrite <- app_length, skipn_app, skipn_all, Nat.sub_diag. reflexivity.
  Qed.

  Lemma settle_ok md cr nx pre post L c e t p0 t0 out0 to x b r :
    0 <= L -> first_line (rest L) = (c, e, t) -> F st lang 0 text = rev out0 ++ F st lang L (rest L) ->
    L <= t0 <= p0 -> mode_ok md cr L c e p0 t0 -> nx_ok nx p0 ->
    (md = Txt \/ md = Stp \/ md = CR -> ph_ok pre c (Z.to_nat (p0 - L)) /\ ph_ok post c (S (Z.to_nat (p0 - L)))) ->
    rel L c e p0 t0 out0 to x r ->
    settle d md cr nx pre post to x = Some b ->
    exists r' L' c' e' t', again m r = Ok (Go r') /\ inv b r' L' c' e' t' /\ moved L c e L' b r'.
  Proof.
    intros HL Hline HF Ht0 Hmd Hnx Hph Hrel Hs.
    pose proof Hrel as [Rcs Rq Rts Rent Ract Rinq Rte Rpos Rlcc Rwlc Rls Rout].
    unfold again. rewrite Rcs. unfold dfa_of. rewrite Hd. cbn [bind]. unfold is_scan_start. rewrite Hscan. cbn [andb].
    unfold settle in Hs. destruct (w_nl x) eqn:Enl.
    - destruct (Pos.eqb to (df_start d)) eqn:Est; [|discriminate]. apply Pos.eqb_eq in Est. subst to.
      assert (r_p r + 1 = L + zlen c + zlen e /\ w_inq x = None /\ b = fresh d x) as (Hp & Hq & ->).
      { destruct md; try discriminate; destruct (w_pos x); try discriminate; destruct (w_inq x); try discriminate;
          injection Hs as <-; cbn in Rpos, Hmd; intuition lia. }
      destruct Rls as (Rls & Rc & Rw). clear Hs. set (L' := L + zlen c + zlen e) in *. pose proof (rest_next _ _ _ _ HL Hline) as Hrest. fold L' in Hrest.
      destruct (first_line (rest L')) as [[c' e'] t'] eqn:El.
      eexists _, L', c', e', t'. split; [reflexivity|].
      split; [|right; cbn; unfold is_scan_start; rewrite ?Hscan; auto].
      rewrite Hq in Rinq. cbn in Rinq.
      constructor; cbn; auto; try lia.
      + rewrite HF, Rout, rev_app_distr, rev_involutive, <- app_assoc. f_equal.
        rewrite (F_step _ _ _ _ _ _ _ Hline). f_equal. rewrite Hrest. f_equal. lia.
      + rewrite Hp, Z.sub_diag. cbn. constructor.
      + rewrite Pos.eqb_refl. repeat split; auto. 
    - assert (Hphx : exists ph, match w_pos x with Cur => Some post | Back => Some pre
                                | AtTe => match post with PKnown _ => Some post | _ => match pre with PBlank => Some PBlank | _ => None end end
                                end = Some ph /\
                (let nx := match w_pos x with Back => nx | _ => NAny end in
                 (if Pos.eqb to (df_start d) then
                  match w_inq x, md, w_pos x with
                  | None, Txt, _ | None, Stp, Back | None, Stp, AtTe =>
                    if w_ls x then
                      Some (mkL to (w_lcc x) (w_wlc x) true ph (w_ent x) None false None CNo nx)
                    else None
                  | _, _, _ => None
                  end
                else
                  match md, w_pos x with
                  | Txt, Cur =>
                    Some (mkL to (w_lcc x) (w_wlc x) (w_ls x) ph (w_ent x) (w_act x)
                              (match w_te x with TeNone => false | _ => true end) (w_inq x) CNo nx)
                  | Txt, Back =>
                    match w_te x with
                    | TeNew => None
                    | t => Some (mkL to (w_lcc x) (w_wlc x) (w_ls x) ph (w_ent x) (w_act x)
                                     (match t with TeNone => false | _ => true end) (w_inq x) CNo nx)
                    end
                  | CR, Cur =>
                    match w_te x, w_inq x with
                    | TeNone, None => Some (mkL to (w_lcc x) (w_wlc x) (w_ls x) ph (w_ent x) (w_act x) false None cr NAny)
                    | _, _ => None
                    end
                  | _, _ => None
                  end) = Some b)).
      { cbv zeta in *. destruct (w_pos x); [| |destruct post; [destruct pre| destruct pre |]]; try discriminate; eexists; split; try reflexivity; exact Hs. }
      clear Hs. destruct Hphx as (ph & Eph & Hs). cbv zeta in Hs. destruct Rls as [Rls Rlf].
      assert (Hpp : L <= r_p r + 1 /\ (md = Txt \/ md = Stp -> w_pos x <> Cur \/ md = Txt -> r_p r + 1 <= L + zlen c)).
      { destruct (w_pos x); cbn in Rpos; [| |destruct Rpos as (v & Ev & Hv & Rpos)]; (split; [lia|]);
          intros [->| ->]; cbn in Hmd; intros; try lia. intuition congruence. }
      destruct Hpp as [HpL HpR].
      assert (Hph' : md = Txt \/ md = Stp \/ md = CR -> ph_ok ph c (Z.to_nat (r_p r + 1 - L))).
      { intros Hm. specialize (Hph Hm) as [H1 H2].
        destruct (w_pos x); cbn in Rpos.
        - injection Eph as <-. rewrite Rpos. replace (Z.to_nat (p0 + 1 - L)) with (S (Z.to_nat (p0 - L))) by lia. auto.
        - injection Eph as <-. rewrite Rpos. replace (p0 - 1 + 1 - L) with (p0 - L) by lia. auto.
        - destruct Rpos as (v & Ev & Hv & Rpos).
          assert (ph = PBlank /\ pre = PBlank \/ exists k, post = PKnown k /\ ph = post) as [[-> ->]|(k & -> & ->)].
          { destruct post; [destruct pre|destruct pre|]; try discriminate; injection Eph as <-; eauto. }
          + eapply ph_blank_shorter; [|exact H1]. lia.
          + exact H2. }
      assert (Hnx' : nx_ok (match w_pos x with Back => nx | _ => NAny end) (r_p r + 1)).
      { destruct (w_pos x); cbn in Rpos |- *; auto. rewrite Rpos. replace (p0 - 1 + 1) with p0 by lia. auto. }
      destruct (Pos.eqb to (df_start d)) eqn:Est.
      + apply Pos.eqb_eq in Est. subst to.
        assert (w_inq x = None /\ w_ls x = true /\ (md = Txt \/ md = Stp) /\ (w_pos x <> Cur \/ md = Txt) /\
                b = mkL (df_start d) (w_lcc x) (w_wlc x) true ph (w_ent x) None false None CNo
                        match w_pos x with Back => nx | _ => NAny end) as (Hq & Hls & Hm & Hpc & ->).
        { destruct (w_inq x); try discriminate. destruct (w_ls x).
          - destruct md; try discriminate.
            + injection Hs as <-. repeat split; auto.
            + destruct (w_pos x); try discriminate; injection Hs as <-; (repeat split; auto; left; discriminate).
          - destruct md; try discriminate. destruct (w_pos x); discriminate. }
        rewrite Hq in Rinq. cbn in Rinq. rewrite Hls in *.
        eexists _, L, c, e, t. split; [reflexivity|]. split; [|left; auto].
        constructor; cbn; auto.
        * rewrite Rout. auto.
        * apply Hph'. tauto.
        * rewrite Pos.eqb_refl. repeat split; auto. discriminate.
      + assert (exists cr' te nx', (md = Txt /\ cr' = CNo /\ w_pos x <> AtTe /\ nx' = match w_pos x with Back => nx | _ => NAny end
                            /\ (te = true -> exists v, r_te r = Some v /\ t0 <= v <= r_p r + 1)
                      \/ md = CR /\ w_pos x = Cur /\ cr' = cr /\ w_inq x = None /\ te = false /\ nx' = NAny) /\
                b = mkL to (w_lcc x) (w_wlc x) (w_ls x) ph (w_ent x) (w_act x) te (w_inq x) cr' nx') as (cr' & te & nx' & Hc & ->).
        { destruct md; try discriminate; destruct (w_pos x) eqn:Ep; try discriminate; cbn in Rpos.
          - injection Hs as <-. eexists CNo, _, _. split; [|reflexivity]. left. repeat split; auto; try congruence.
            intros Hte. pose proof Rte as Rte'. destruct (w_te x); cbn in Rte'; try discriminate.
            + destruct Rte' as (v & Ev & Hv). exists v. split; auto. lia.
            + exists p0. split; auto. lia.
            + exists (p0 + 1). split; auto. lia.
          - destruct (w_te x) eqn:Ete; try discriminate; injection Hs as <-; eexists CNo, _, _; (split; [|reflexivity]);
              left; repeat split; auto; try congruence; intros Hte; try discriminate Hte; cbn in Rte.
            + destruct Rte as (v & Ev & Hv). exists v. split; auto. lia.
            + exists p0. split; auto. lia.
          - destruct (w_te x); try discriminate. destruct (w_inq x); try discriminate. injection Hs as <-.
            eexists cr, false, NAny. split; [|reflexivity]. right. repeat split; auto. }
        assert (Htp : t0 <= r_p r + 1).
        { destruct Hc as [(-> & _ & Hp & _)|(-> & Hp & _)]; destruct (w_pos x); cbn in Rpos; try congruence; lia. }
        eexists _, L, c, e, t. split; [reflexivity|]. split; [|left; auto].
        constructor; cbn; auto.
        * rewrite Rout. auto.
        * destruct Hc as [(-> & -> & Hp & _)|(-> & Hp & -> & _)]; cbn.
          -- apply HpR; tauto.
          -- rewrite Hp in Rpos. cbn in Rpos. rewrite Rpos. cbn in Hmd. tauto.
        * apply Hph'. destruct Hc as [(-> & _)|(-> & _)]; tauto.
        * destruct Hc as [(_ & _ & _ & -> & _)|(_ & _ & _ & _ & _ & ->)]; cbn; auto.
        * rewrite Est. exists t0. split; [auto|]. split; [lia|]. split; [auto|]. split.
          { destruct Hc as [(_ & -> & _)|(-> & Hp & _)]; [congruence|]. intros _. rewrite Hp in Rpos. cbn in Rpos, Hmd. lia. }
          split; [exact Rinq|]. destruct Hc as [(_ & _ & _ & _ & H)|(_ & _ & _ & _ & -> & _)]; [exact H|discriminate].
  Qed.

  Definition begin (a : ast) (to : positive) (r : rt) : rt :=
    set_cs (Some (0%nat, to)) (if Pos.eqb (a_cs a) (df_start d) then set_ts (Some (r_p r)) r else r).

  Lemma enter_ok a r L c e t : inv a r L c e t -> exists t0,
    L <= t0 <= r_p r /\ (Pos.eqb (a_cs a) (df_start d) = true -> t0 = r_p r)
    /\ (a_cr a <> CNo -> t0 = r_p r - 1)
    /\ forall to, rel L c e (r_p r) t0 (r_out r) to (enter d a) (begin a to r).
  Proof.
    intros [HL Hl HF Hp Hcr Hph Hnx Hcs Hq Hent Hact Hlcc Hwlc Hls Htok]. unfold begin.
    destruct (Pos.eqb (a_cs a) (df_start d)).
    - destruct Htok as (H1 & H2 & H3 & H4 & H5). exists (r_p r).
      split; [lia|]. split; [auto|]. split; [congruence|]. intros to.
      constructor; cbn; auto; rewrite ?H2, ?H3; cbn; auto.
    - destruct Htok as (t0 & H1 & H2 & H3 & H4 & H5 & H6). exists t0.
      split; [lia|]. split; [discriminate|]. split; [auto|]. intros to.
      constructor; cbn; auto. destruct (a_te a); cbn; auto.
  Qed.

  Lemma edge_ok a r L c e t t0 md cr nx pre post ed b :
    inv a r L c e t ->
    L <= t0 <= r_p r ->
    (forall to, rel L c e (r_p r) t0 (r_out r) to (enter d a) (begin a to r)) ->
    mode_ok md cr L c e (r_p r) t0 -> nx_ok nx (r_p r) ->
    (md = Txt \/ md = Stp \/ md = CR -> ph_ok pre c (Z.to_nat (r_p r - L)) /\ ph_ok post c (S (Z.to_nat (r_p r - L)))) ->
    (md = NL \/ md = After -> forall k, post = PKnown k -> line_kind st c = k) ->
    do_edge lang d md cr nx pre post ed a = Some b ->
    exists to r2 r' L' c' e' t', e_to ed = Some to /\ exec_instrs m text d (e_ins ed) (begin a to r) = Ok (r2, false)
      /\ again m r2 = Ok (Go r') /\ inv b r' L' c' e' t' /\ moved L c e L' b r'.
  Proof.
    intros Hinv Ht0 Hrel Hmd Hnx Hph Hk Hb. unfold do_edge in Hb.
    destruct (e_to ed) as [to|]; [|discriminate].
    destruct (k_instrs _ _ _ _ _ _) as [x|] eqn:Ex; [|discriminate].
    destruct (rel_instrs L c e (r_p r) t0 (r_out r) to md (match post with PKnown k => Some k | _ => None end)) with (d := d) (l := e_ins ed) (x := enter d a) (y := x) (r := begin a to r)
      as (r2 & E2 & Hr2); auto.
    { destruct post; auto. }
    { destruct md; auto. }
    destruct Hinv.
    destruct (settle_ok md cr nx pre post L c e t (r_p r) t0 (r_out r) to x b r2) as (r' & L' & c' & e' & t' & Hag & Hi & Hmv); auto.
    exists to, r2, r', L', c', e', t'. auto 10.
  Qed.

  Lemma nth_skipn {A} (l : list A) : forall i j, nth_error (skipn i l) j = nth_error l (i + j).
  Proof. induction l; intros [|i] j; cbn; auto. destruct j; reflexivity. Qed.

  Lemma at_rest L p : 0 <= L -> L <= p -> nth_error (rest L) (Z.to_nat (p - L)) = at_ p.
  Proof. intros. rewrite nth_skipn. f_equal. lia. Qed.

  (** The edge that is taken on a byte, and the abstract state after it. *)
  Lemma byte_ok a r L c e t ch cl q bs br :
    inv a r L c e t -> at_ (r_p r) = Some ch -> r_p r <> zlen text ->
    PM.find (Z.to_pos (ch + 1)) (m_class m) = Some cl ->
    nth_error (q_row q) cl = Some br ->
    on_byte st lang m d q a ch = Some bs ->
    exists ed b to r2 r' L' c' e' t',
      select text br (if Pos.eqb (a_cs a) (df_start d) then set_ts (Some (r_p r)) r else r) = Ok ed
      /\ In b bs /\ e_to ed = Some to
      /\ exec_instrs m text d (e_ins ed) (begin a to r) = Ok (r2, false)
      /\ again m r2 = Ok (Go r') /\ inv b r' L' c' e' t' /\ moved L c e L' b r'.
  Proof.
    intros Hinv Hch Hne Hcl Hbr Hon. destruct (enter_ok _ _ _ _ _ _ Hinv) as (t0 & Ht0 & Hts & Htc & Hrel).
    unfold on_byte in Hon. rewrite Hcl, Hbr in Hon.
    pose proof Hinv as [HL Hl HF Hp Hcr Hph Hnx Hcs Hq Hent Hact Hlcc Hwlc Hls Htok].
    assert (Hnx' : match a_nx a with NAny => false | NClass n => negb (Nat.eqb n cl) | NEnd => true end = false).
    { destruct (a_nx a) as [|n|]; cbn in Hnx; auto.
      - destruct Hnx as (b & E1 & E2). assert (b = ch) by congruence. subst b. assert (n = cl) as -> by congruence.
        rewrite Nat.eqb_refl. reflexivity.
      - congruence. }
    rewrite Hnx' in Hon. clear Hnx'.
    assert (Hncl : nx_ok (NClass cl) (r_p r)) by (cbn; eauto).
    set (scan := Pos.eqb (a_cs a) (df_start d)) in *. cbv zeta in Hon.
    set (r0 := if scan then set_ts (Some (r_p r)) r else r).
    assert (Hrp : r_p r0 = r_p r) by (unfold r0; destruct scan; reflexivity).
    (* the common conclusion for a chosen edge *)
    assert (Hgo : forall md cr pre post ed b,
      mode_ok md cr L c e (r_p r) t0 ->
      (md = Txt \/ md = Stp \/ md = CR -> ph_ok pre c (Z.to_nat (r_p r - L)) /\ ph_ok post c (S (Z.to_nat (r_p r - L)))) ->
      (md = NL \/ md = After -> forall k, post = PKnown k -> line_kind st c = k) ->
      select text br r0 = Ok ed ->
      do_edge lang d md cr (NClass cl) pre post ed a = Some b -> In b bs ->
      exists ed b to r2 r' L' c' e' t',
      select text br r0 = Ok ed
      /\ In b bs /\ e_to ed = Some to
      /\ exec_instrs m text d (e_ins ed) (begin a to r) = Ok (r2, false)
      /\ again m r2 = Ok (Go r') /\ inv b r' L' c' e' t' /\ moved L c e L' b r').
    { intros md cr pre post ed b H1 H2 H3 H4 H5 H6.
      destruct (edge_ok a r L c e t t0 md cr (NClass cl) pre post ed b) as (to & r2 & r' & L' & c' & e' & t' & A & B & C & D); auto.
      exists ed, b, to, r2, r', L', c', e', t'. auto 10. }
    assert (Hone : forall md cr pre post ed,
      br = BEdge ed ->
      mode_ok md cr L c e (r_p r) t0 ->
      (md = Txt \/ md = Stp \/ md = CR -> ph_ok pre c (Z.to_nat (r_p r - L)) /\ ph_ok post c (S (Z.to_nat (r_p r - L)))) ->
      (md = NL \/ md = After -> forall k, post = PKnown k -> line_kind st c = k) ->
      option_map (fun x => [x]) (do_edge lang d md cr (NClass cl) pre post ed a) = Some bs ->
      exists ed b to r2 r' L' c' e' t',
      select text br r0 = Ok ed
      /\ In b bs /\ e_to ed = Some to
      /\ exec_instrs m text d (e_ins ed) (begin a to r) = Ok (r2, false)
      /\ again m r2 = Ok (Go r') /\ inv b r' L' c' e' t' /\ moved L c e L' b r').
    { intros md cr pre post ed -> H1 H2 H3 H4. destruct (do_edge lang d md cr (NClass cl) pre post ed a) as [b|] eqn:E; [|discriminate H4].
      injection H4 as <-. eapply Hgo; eauto; [reflexivity|left; reflexivity]. }
    assert (Htwo : forall md cr1 cr2 pre post y n,
      br = BIf CrAlone (BEdge y) (BEdge n) ->
      (forall f, eval_cond text CrAlone r0 = Ok f -> mode_ok md (if f then cr1 else cr2) L c e (r_p r) t0) ->
      (md = Txt \/ md = Stp \/ md = CR -> ph_ok pre c (Z.to_nat (r_p r - L)) /\ ph_ok post c (S (Z.to_nat (r_p r - L)))) ->
      (md = NL \/ md = After -> forall k, post = PKnown k -> line_kind st c = k) ->
      match do_edge lang d md cr1 (NClass cl) pre post y a, do_edge lang d md cr2 (NClass cl) pre post n a with
      | Some u, Some v => Some [u; v]
      | _, _ => None
      end = Some bs ->
      exists ed b to r2 r' L' c' e' t',
      select text br r0 = Ok ed
      /\ In b bs /\ e_to ed = Some to
      /\ exec_instrs m text d (e_ins ed) (begin a to r) = Ok (r2, false)
      /\ again m r2 = Ok (Go r') /\ inv b r' L' c' e' t' /\ moved L c e L' b r').
    { intros md cr1 cr2 pre post y n -> H1 H2 H3 H4.
      destruct (do_edge lang d md cr1 (NClass cl) pre post y a) as [u|] eqn:Eu; [|discriminate H4].
      destruct (do_edge lang d md cr2 (NClass cl) pre post n a) as [v|] eqn:Ev; [|discriminate H4].
      injection H4 as <-.
      assert (exists f, eval_cond text CrAlone r0 = Ok f) as [f Ef].
      { unfold eval_cond. rewrite Hrp. destruct (r_p r + 1 <? zlen text) eqn:E; [|eauto].
        apply Z.ltb_lt in E. unfold src. destruct (r_p r + 1 <? 0) eqn:E2; [apply Z.ltb_lt in E2; lia|].
        destruct (at_ (r_p r + 1)) eqn:E3; cbn; eauto. apply nth_error_None in E3. lia. }
      specialize (H1 f Ef).
      eapply (Hgo md (if f then cr1 else cr2) pre post (if f then y else n) (if f then u else v)); auto.
      - cbn [select]. rewrite Ef. cbn [bind]. destruct f; reflexivity.
      - destruct f; auto.
      - destruct f; cbn; auto. }
    pose proof (first_line_at _ _ _ _ (Z.to_nat (r_p r - L)) ch Hl) as Hat.
    rewrite at_rest in Hat by lia.
    destruct (a_cr a) eqn:Ecr; cbn in Hcr.
    - (* no CR before *)
      specialize (Hat ltac:(lia) Hch). unfold at_byte in Hat. unfold is_lf in Hon.
      destruct ((ch =? 10) || (ch =? 12)) eqn:Elf.
      + destruct Hat as [Hi He]. destruct br as [ed|]; [|discriminate].
        assert (Hkd : line_kind st c = decide (a_ph a)) by (eapply ph_decide; [exact Hph|left; auto]).
        destruct scan eqn:Esc.
        * eapply (Hone NL); [reflexivity| | | |exact Hon].
          -- cbn. rewrite He, (Hts eq_refl). cbn. split; [lia|]. split; [lia|discriminate].
          -- intros [H|[H|H]]; discriminate.
          -- intros _ k Hk. injection Hk as <-. auto.
        * eapply (Hone Stp); [reflexivity| | | |exact Hon].
          -- cbn. lia.
          -- intros _. split; [auto|apply ph_known; auto].
          -- intros [H|H]; discriminate.
      + destruct (ch =? 13) eqn:Ecrr.
        * assert (Hdone : line_done c (Z.to_nat (r_p r - L))).
          { apply Z.eqb_eq in Ecrr. subst ch. destruct (nth_error (rest L) (S (Z.to_nat (r_p r - L)))); [left; tauto|right; tauto]. }
          assert (Hkd : line_kind st c = decide (a_ph a)) by (eapply ph_decide; [exact Hph|auto]).
          destruct br as [ed|cd [y|? ? ?] [n|? ? ?]]; try (destruct cd; discriminate Hon).
          -- destruct scan; [discriminate|]. eapply (Hone Stp); [reflexivity| | | |exact Hon].
             ++ cbn. lia.
             ++ intros _. split; [auto|apply ph_known; auto].
             ++ intros [H|H]; discriminate.
          -- destruct cd; try discriminate. destruct scan eqn:Esc.
             ++ eapply (Htwo CR); [reflexivity| | | |exact Hon].
                ** intros f Ef. cbn. split; [auto|]. unfold eval_cond in Ef. rewrite Hrp in Ef.
                   assert (Hnext : nth_error (rest L) (S (Z.to_nat (r_p r - L))) = at_ (r_p r + 1)).
                   { rewrite nth_skipn. f_equal. lia. }
                   rewrite Hnext in Hat. apply Z.eqb_eq in Ecrr. subst ch.
                   destruct (r_p r + 1 <? zlen text) eqn:E.
                   --- apply Z.ltb_lt in E. unfold src in Ef. destruct (r_p r + 1 <? 0) eqn:E2; [apply Z.ltb_lt in E2; lia|].
                       destruct (at_ (r_p r + 1)) as [nx|] eqn:E3; [|apply nth_error_None in E3; lia].
                       cbn in Ef. injection Ef as <-. destruct Hat as [Hi He]. destruct (nx =? 10) eqn:E10; cbn.
                       +++ apply Z.eqb_eq in E10. subst nx. right. split; [lia|]. split; auto.
                       +++ apply Z.eqb_neq in E10. split; [lia|]. split; [auto|]. eauto.
                   --- apply Z.ltb_ge in E. injection Ef as <-. cbn.
                       destruct (at_ (r_p r + 1)) as [nx|] eqn:E3.
                       { assert (nth_error text (Z.to_nat (r_p r + 1)) <> None) as Hx by congruence. apply nth_error_Some in Hx. lia. }
                       left. split; [lia|].
                       assert (nth_error text (Z.to_nat (r_p r)) <> None) as Hx by congruence. apply nth_error_Some in Hx. lia.
                ** intros _. split; [auto|apply ph_known; auto].
                ** intros [H|H]; discriminate.
             ++ eapply (Htwo Stp); [reflexivity| | | |exact Hon].
                ** intros f Ef. cbn. lia.
                ** intros _. split; [auto|apply ph_known; auto].
                ** intros [H|H]; discriminate.
        * destruct Hat as [Hi Hn]. destruct br as [ed|]; [|discriminate].
          eapply (Hone Txt); [reflexivity| | | |exact Hon].
          -- cbn. lia.
          -- intros _. split; [auto|]. apply ph_advance; auto. apply Z.eqb_neq in Ecrr. auto.
          -- intros [H|H]; discriminate.
    - (* after a lone CR *)
      destruct Hcr as (Hpe & He & b & Eb & Hb). assert (b = ch) by congruence. subst b.
      apply Z.eqb_neq in Hb. rewrite Hb in Hon. specialize (Htc ltac:(discriminate)).
      assert (Hm : forall cr, mode_ok After cr L c e (r_p r) t0).
      { intros cr. cbn. rewrite He. cbn. split; [lia|]. split; [lia|discriminate]. }
      assert (Hkk : forall k, a_ph a = PKnown k -> line_kind st c = k).
      { intros k Ek. rewrite Ek in Hph. apply Hph. }
      destruct br as [ed|cd [y|? ? ?] [n|? ? ?]]; try (destruct cd; discriminate Hon).
      + eapply (Hone After); [reflexivity|apply Hm| | |exact Hon]; auto. intros [H|[H|H]]; discriminate.
      + destruct cd; try discriminate. eapply (Htwo After); [reflexivity| | | |exact Hon]; auto.
        intros [H|[H|H]]; discriminate.
    - (* CR LF *)
      destruct Hcr as [[_ Hpe]|(Hpe & He & Eb)]; [congruence|]. assert (ch = 10) by congruence. subst ch.
      cbn [Z.eqb Pos.eqb] in Hon. specialize (Htc ltac:(discriminate)). destruct br as [ed|]; [|discriminate].
      eapply (Hone NL); [reflexivity| | | |exact Hon].
      + cbn. rewrite He. cbn. split; [lia|]. split; [lia|discriminate].
      + intros [H|[H|H]]; discriminate.
      + intros _ k Ek. rewrite Ek in Hph. apply Hph.
  Qed.

  Definition finished (r : rt) : Prop :=
    exists r', process_last_line m text r = Ok r' /\ rev (r_out r') = F st lang 0 text.

  (** The end of the buffer. *)
  Lemma end_ok a r L c e t q b :
    inv a r L c e t -> r_p r = zlen text -> on_end lang d q a = Some b ->
    match b with
    | None => q_eof_to q = None /\ q_eof q = [] /\ finished r
    | Some b => exists to r2 r' L' c' e' t', q_eof_to q = Some to /\
        exec_instrs m text d (q_eof q) (set_cs (Some (0%nat, to)) r) = Ok (r2, false)
        /\ again m r2 = Ok (Go r') /\ inv b r' L' c' e' t' /\ moved L c e L' b r'
    end.
  Proof.
    intros Hinv Hend Hon. destruct (enter_ok _ _ _ _ _ _ Hinv) as (t0 & Ht0 & Hts & Htc & Hrel).
    pose proof Hinv as [HL Hl HF Hp Hcr Hph Hnx Hcs Hq Hent Hact Hlcc Hwlc Hls Htok].
    assert (Hnone : at_ (r_p r) = None) by (apply nth_error_None; lia).
    assert (Hnc : a_cr a <> CLone /\ forall n, a_nx a <> NClass n).
    { split.
      - intros E. rewrite E in Hcr. cbn in Hcr. destruct Hcr as (_ & _ & x & Ex & _). congruence.
      - intros n E. rewrite E in Hnx. cbn in Hnx. destruct Hnx as (x & Ex & _). congruence. }
    unfold on_end in Hon.
    assert (Hon' : match q_eof_to q with
      | Some to =>
        if (match a_cr a with CNo => false | _ => true end) || Pos.eqb (a_cs a) (df_start d) then None
        else option_map Some (do_edge lang d Stp CNo NEnd (a_ph a) (PKnown (decide (a_ph a))) (mkEdge (Some to) (q_eof q)) a)
      | None =>
        if is_nil (q_eof q) && kind_eqb (flag_kind (a_lcc a) (a_wlc a)) (decide (a_ph a))
           && (a_ls a || negb (a_lcc a || a_wlc a))
        then Some None else None
      end = Some b).
    { destruct Hnc as [H1 H2]. destruct (a_cr a); [|congruence|]; (destruct (a_nx a) as [|n|] eqn:En; [exact Hon|exfalso; apply (H2 n); reflexivity|exact Hon]). }
    clear Hon. cbv zeta in Hon'.
    assert (Hple : r_p r <= L + zlen c).
    { destruct (a_cr a); cbn in Hcr; [auto|tauto|]. destruct Hcr as [[H _]|(_ & _ & H)]; [lia|congruence]. }
    pose proof (first_line_end _ _ _ _ (Z.to_nat (r_p r - L)) Hl) as Hfe.
    rewrite at_rest in Hfe by lia. specialize (Hfe ltac:(lia) Hnone) as (Hi & He & Ht).
    assert (Hkd : line_kind st c = decide (a_ph a)) by (eapply ph_decide; [exact Hph|left; auto]).
    destruct (q_eof_to q) as [to|].
    - destruct (match a_cr a with CNo => false | _ => true end) eqn:Ec; [discriminate|].
      destruct (Pos.eqb (a_cs a) (df_start d)) eqn:Esc; [discriminate|]. cbn [orb] in Hon'.
      destruct (do_edge _ _ _ _ _ _ _ _ _) as [b'|] eqn:Ed; [|discriminate]. injection Hon' as <-.
      destruct (edge_ok a r L c e t t0 Stp CNo NEnd (a_ph a) (PKnown (decide (a_ph a))) (mkEdge (Some to) (q_eof q)) b')
        as (to' & r2 & r' & L' & c' & e' & t' & A & B & C & D); auto.
      { intros _. split; [auto|apply ph_known; auto]. }
      { intros [H|H]; discriminate H. }
      cbn in A. injection A as <-. unfold begin in B. rewrite Esc in B. cbn [e_ins] in B.
      exists to, r2, r', L', c', e', t'. auto 10.
    - destruct (is_nil (q_eof q)) eqn:En; [|discriminate]. cbn [andb] in Hon'.
      destruct (kind_eqb _ _) eqn:Ek; [|discriminate]. cbn [andb] in Hon'.
      destruct (a_ls a || negb (a_lcc a || a_wlc a)) eqn:Els; [|discriminate]. injection Hon' as <-.
      split; [auto|]. split; [destruct (q_eof q); [auto|discriminate]|].
      apply kind_eqb_eq in Ek. unfold finished, process_last_line.
      rewrite HF. rewrite (F_step _ _ _ _ _ _ _ Hl). subst e t. unfold F. cbn [file_reports length]. rewrite app_nil_r.
      unfold line_reports. rewrite Hkd, <- Ek, kind_flags, Hlcc, Hwlc, Hls, Hlang.
      replace (L + Z.of_nat (length c + length (@nil Z))) with (zlen text) by (cbn [length]; lia).
      destruct (a_lcc a), (a_wlc a), (a_ls a); cbn in Els |- *; try discriminate;
        (eexists; split; [reflexivity|]; cbn; rewrite ?app_nil_r; reflexivity).
  Qed.

  Variable tb : table.
  Hypothesis Htb : forall a, t_mem tb a = true -> check_state st lang m d tb a = true.

  Definition good (r : rt) : Prop := exists a L c e t, t_mem tb a = true /\ inv a r L c e t.
  Hypothesis Hbyte : forall i b, nth_error text i = Some b -> In b the_bytes.

  Lemma step_inv a r o L c e t : t_mem tb a = true -> inv a r L c e t ->
    (forall b, at_ (r_p r) = Some b -> In b the_bytes) -> step m text r = Ok o ->
    match o with
    | Go r' => exists b L' c' e' t', t_mem tb b = true /\ inv b r' L' c' e' t' /\ moved L c e L' b r'
    | Stop r' => finished r'
    end.
  Proof.
    intros Hm Hinv Hby Hs. pose proof (Htb _ Hm) as Hck. unfold check_state in Hck.
    unfold step in Hs. rewrite (I_cs _ _ _ _ _ _ Hinv) in Hs. unfold dfa_of in Hs. rewrite Hd in Hs. cbn [bind] in Hs.
    unfold state_of in Hs. destruct (PM.find (a_cs a) (df_sts d)) as [q|]; [|discriminate]. cbn [bind] in Hs.
    apply andb_prop in Hck as [Hck1 Hck2].
    destruct (r_p r =? zlen text) eqn:Eend.
    - apply Z.eqb_eq in Eend. destruct (on_end lang d q a) as [b|] eqn:Eon; [|discriminate].
      pose proof (end_ok _ _ _ _ _ _ _ _ Hinv Eend Eon) as H. destruct b as [b|].
      + destruct H as (to & r2 & r' & L' & c' & e' & t' & E1 & E2 & E3 & Hi & Hmv). rewrite E1, E2 in Hs. cbn [bind] in Hs.
        rewrite E3 in Hs. injection Hs as <-. exists b, L', c', e', t'. auto.
      + destruct H as (E1 & E2 & Hf). rewrite E1, E2 in Hs. cbn in Hs. injection Hs as <-. exact Hf.
    - apply Z.eqb_neq in Eend.
      assert (Hp : 0 <= r_p r) by (pose proof (I_L _ _ _ _ _ _ Hinv); pose proof (I_p _ _ _ _ _ _ Hinv); lia).
      cbv zeta in Hs. unfold is_scan_start in Hs. rewrite Hscan in Hs. cbn [andb] in Hs.
      assert (Hrp : r_p (if Pos.eqb (a_cs a) (df_start d) then set_ts (Some (r_p r)) r else r) = r_p r)
        by (destruct (Pos.eqb _ _); reflexivity).
      rewrite Hrp in Hs. unfold src in Hs. destruct (r_p r <? 0) eqn:E0; [apply Z.ltb_lt in E0; lia|].
      destruct (at_ (r_p r)) as [ch|] eqn:Ech.
      2: { destruct (r_p r =? zlen text) eqn:E; [apply Z.eqb_eq in E; congruence|discriminate]. }
      cbn [bind] in Hs.
      destruct (PM.find (Z.to_pos (ch + 1)) (m_class m)) as [cl|] eqn:Ecl; [|discriminate]. cbn [bind] in Hs.
      destruct (nth_error (q_row q) cl) as [br|] eqn:Ebr; [|discriminate]. cbn [bind] in Hs.
      rewrite forallb_forall in Hck1. specialize (Hck1 ch (Hby _ eq_refl)).
      destruct (on_byte st lang m d q a ch) as [bs|] eqn:Eon; [|discriminate].
      destruct (byte_ok _ _ _ _ _ _ _ _ _ _ _ Hinv Ech Eend Ecl Ebr Eon) as (ed & b & to & r2 & r' & L' & c' & e' & t' & E1 & E2 & E3 & E4 & E5 & Hi & Hmv).
      rewrite E1 in Hs. cbn [bind] in Hs. rewrite E3 in Hs. cbn [option_map] in Hs.
      unfold begin in E4. rewrite E4 in Hs. cbn [bind] in Hs. rewrite E5 in Hs. injection Hs as <-.
      exists b, L', c', e', t'. split; auto. rewrite forallb_forall in Hck1. auto.
  Qed.

  Lemma step_ok r o : good r -> step m text r = Ok o ->
    match o with Go r' => good r' | Stop r' => finished r' end.
  Proof.
    intros (a & L & c & e & t & Hm & Hinv) Hs.
    pose proof (step_inv _ _ _ _ _ _ _ Hm Hinv ltac:(eauto) Hs) as H. destruct o as [r'|r']; auto.
    destruct H as (b & L' & c' & e' & t' & H1 & H2 & _). exists b, L', c', e', t'. auto.
  Qed.

  Lemma loop_ok fuel : forall r r', good r -> loop m text fuel r = Ok r' -> finished r'.
  Proof.
    induction fuel as [|fuel IH]; cbn [loop]; intros r r' Hg Hl; [discriminate Hl|].
    destruct (step m text r) as [o| |] eqn:Es; cbn [bind] in Hl; try discriminate Hl.
    pose proof (step_ok _ _ Hg Es) as H. destruct o as [r1|r1]; [eauto|]. injection Hl as <-. exact H.
  Qed.

  Lemma start_good : t_mem tb (start_state d) = true -> forall r, start m = Ok r -> good r.
  Proof.
    intros Hm r Hs. unfold start, entry, dfa_of in Hs. rewrite Hd in Hs. cbn [bind] in Hs. injection Hs as <-.
    destruct (first_line (rest 0)) as [[c e] t] eqn:El.
    exists (start_state d), 0, c, e, t. split; auto.
    constructor; cbn; auto; try lia; try constructor. rewrite Pos.eqb_refl. auto.
  Qed.
End Sound.


(** ** Prefixes that end with a line end *)

Lemma first_line_shape l : forall c e t, first_line l = (c, e, t) ->
  e = [] \/ (exists b, e = [b]) \/ e = [13; 10].
Proof.
  induction l as [|b l IH]; intros c e t H.
  - cbn in H. injection H as <- <- <-. auto.
  - rewrite first_line_cons in H. destruct (line_end (b :: l)) as [|k] eqn:El.
    + destruct (first_line l) as [[a e'] t']. injection H as <- <- <-. eauto.
    + injection H as <- <- <-. cbn in El.
      destruct ((b =? 10) || (b =? 12)).
      * injection El as <-. right. left. exists b. reflexivity.
      * destruct (b =? 13) eqn:E13; [|discriminate]. destruct l as [|x l]; [discriminate|].
        destruct (x =? 10) eqn:E10; injection El as <-.
        -- right. right. apply Z.eqb_eq in E13, E10. subst. reflexivity.
        -- right. left. exists b. reflexivity.
Qed.

Lemma line_end_app b l x : (l <> [] \/ b <> 13) -> line_end ((b :: l) ++ x) = line_end (b :: l).
Proof.
  intros H. cbn. destruct (_ || _); auto. destruct (b =? 13) eqn:E; auto. apply Z.eqb_eq in E.
  destruct l; [|reflexivity]. destruct H; congruence.
Qed.

Lemma first_line_more l x : forall k b, l = k ++ [b] -> b = 10 \/ b = 12 ->
  forall c e t, first_line l = (c, e, t) -> first_line (l ++ x) = (c, e, t ++ x) /\ e <> [] /\ whole_lines t.
Proof.
  induction l as [|a l IH]; intros k b Hl Hb c e t H; [destruct k; discriminate|].
  assert (Ha : l <> [] \/ a <> 13).
  { destruct k as [|k0 k]; cbn in Hl; injection Hl as -> ->; [right; lia|]. left. destruct k; discriminate. }
  rewrite first_line_cons in H. change ((a :: l) ++ x) with (a :: (l ++ x)). rewrite first_line_cons.
  change (a :: (l ++ x)) with ((a :: l) ++ x). rewrite line_end_app by auto.
  destruct (line_end (a :: l)) as [|n] eqn:El.
  - destruct k as [|k0 k]; cbn in Hl; injection Hl as -> ->.
    { cbn in El. destruct Hb as [-> | ->]; discriminate. }
    destruct (first_line (k ++ [b])) as [[c' e'] t'] eqn:E. injection H as <- <- <-.
    destruct (IH k b eq_refl Hb c' e' t' eq_refl) as (H1 & H2 & H3). rewrite H1. auto.
  - pose proof (line_end_le (a :: l)) as Hle. rewrite El in Hle.
    injection H as <- <- <-. split; [|split; [discriminate|]].
    + rewrite firstn_app, skipn_app. replace (S n - length (a :: l))%nat with 0%nat by lia.
      cbn [firstn skipn]. rewrite app_nil_r. reflexivity.
    + destruct k as [|k0 k]; cbn in Hl; injection Hl as -> ->.
      * left. cbn. apply skipn_nil.
      * assert (n = 0 \/ n = 1 /\ exists k', k ++ [b] = 10%Z :: k')%nat as [-> |[-> [k' Hk']]].
        { cbn in El. destruct ((k0 =? 10) || (k0 =? 12)); [injection El; auto|]. destruct (k0 =? 13); [|discriminate].
          destruct (k ++ [b]) as [|y k'] eqn:Ek; [discriminate|]. destruct (y =? 10) eqn:Ey; [|injection El; auto].
          right. injection El as <-. apply Z.eqb_eq in Ey. subst. eauto. }
        -- right. exists k, b. auto.
        -- change (skipn 2 (k0 :: k ++ [b])) with (skipn 1 (k ++ [b])).
           destruct k as [|k1 k]; [left; reflexivity|]. right. exists k, b. auto.
Qed.

Lemma F_prefix st lang x n : forall l pos, (length l <= n)%nat -> whole_lines l ->
  F st lang pos (l ++ x) = F st lang pos l ++ F st lang (pos + zlen l) x.
Proof.
  induction n; intros l pos Hn Hl.
  - destruct l; [|cbn in Hn; lia]. cbn. rewrite Z.add_0_r. reflexivity.
  - destruct Hl as [-> |(k & b & Hk & Hb)].
    { cbn. rewrite Z.add_0_r. reflexivity. }
    destruct (first_line l) as [[c e] t] eqn:E.
    destruct (first_line_more _ x _ _ Hk Hb _ _ _ E) as (E' & He & Ht).
    rewrite (F_step _ _ _ _ _ _ _ E), (F_step _ _ _ _ _ _ _ E'), <- app_assoc. f_equal.
    pose proof (first_line_app _ _ _ _ E) as Ea. apply (f_equal (@length Z)) in Ea. rewrite !app_length in Ea.
    pose proof (zlen_pos e He). rewrite IHn; [|lia|auto]. f_equal. f_equal. lia.
Qed.

Section Tab.
  Variable st : style.
  Variable lang : string.
  Variable m : machine.
  Variables pre post : list Z.
  Notation text := (pre ++ 11 :: post).
  Notation N := (zlen pre).
  Hypothesis Hclean : clean st = true.
  Variable d : dfa.
  Hypothesis Hd : nth_error (m_dfas m) 0 = Some d.
  Hypothesis Hscan : df_scan d = true.
  Hypothesis Hlang : m_lang m = lang.
  Variable tb : table.
  Hypothesis Htb : forall a, t_mem tb a = true -> check_state st lang m d tb a = true.
  Hypothesis Hpre : whole_lines pre.
  Hypothesis Hby : forall b, In b pre -> In b the_bytes.
  Hypothesis Htab : exists q cl, PM.find (df_start d) (df_sts d) = Some q /\ PM.find 12%positive (m_class m) = Some cl
    /\ nth_error (q_row q) cl = Some (BEdge (mkEdge None [])).

  Definition good_tab (r : rt) : Prop := exists a L c e t, t_mem tb a = true /\ inv st lang m text d a r L c e t
    /\ L <= N /\ (L = N -> r_p r = N /\ a_cs a = df_start d /\ a_lcc a = false /\ a_wlc a = false).

  Lemma text_at i : (i < length pre)%nat -> nth_error text i = nth_error pre i.
  Proof. intros. apply nth_error_app1. auto. Qed.

  Lemma inside a r L c e t : inv st lang m text d a r L c e t -> L < N ->
    L + zlen c <= N - 1 /\ r_p r < N /\ L + zlen c + zlen e <= N.
  Proof.
    intros Hinv HL. pose proof (I_L _ _ _ _ _ _ _ _ _ _ _ Hinv) as H0.
    pose proof (I_line _ _ _ _ _ _ _ _ _ _ _ Hinv) as Hl.
    destruct Hpre as [->|(k & b & Hk & Hb)]; [cbn in HL; lia|].
    assert (HN : N = zlen k + 1) by (rewrite Hk, app_length; cbn; lia).
    assert (Hlast : nth_error text (Z.to_nat (N - 1)) = Some b).
    { rewrite text_at by lia. replace (Z.to_nat (N - 1)) with (length k) by lia.
      rewrite Hk, nth_error_app2, Nat.sub_diag by lia. reflexivity. }
    assert (Hc : L + zlen c <= N - 1).
    { destruct (Z_le_gt_dec (L + zlen c) (N - 1)); auto. exfalso.
      pose proof (first_line_at _ _ _ _ (Z.to_nat (N - 1 - L)) b Hl ltac:(lia)) as Hat.
      rewrite nth_skipn in Hat. replace (Z.to_nat L + Z.to_nat (N - 1 - L))%nat with (Z.to_nat (N - 1)) in Hat by lia.
      specialize (Hat Hlast). unfold at_byte in Hat.
      replace ((b =? 10) || (b =? 12)) with true in Hat by (destruct Hb as [-> | ->]; reflexivity). lia. }
    assert (Hfst : forall x e', e = x :: e' -> nth_error text (Z.to_nat (L + zlen c)) = Some x).
    { intros x e' ->. apply first_line_app in Hl.
      replace (Z.to_nat (L + zlen c)) with (Z.to_nat L + length c)%nat by lia.
      rewrite <- nth_skipn, Hl, nth_error_app2, Nat.sub_diag by lia. reflexivity. }
    assert (H13 : forall e', e = 13 :: e' -> L + zlen c < N - 1).
    { intros e' He. specialize (Hfst _ _ He). destruct (Z.eq_dec (L + zlen c) (N - 1)) as [E|]; [|lia].
      rewrite E, Hlast in Hfst. injection Hfst as ->. lia. }
    split; auto. split.
    - pose proof (I_cr _ _ _ _ _ _ _ _ _ _ _ Hinv) as Hcr. destruct (a_cr a); cbn in Hcr.
      + lia.
      + destruct Hcr as (E & He & _). specialize (H13 _ He). lia.
      + destruct Hcr as [(E & E2)|(E & He & _)]; [lia|]. specialize (H13 _ He). lia.
    - destruct (first_line_shape _ _ _ _ Hl) as [->|[[x ->]| ->]]; cbn [length] in *; try lia.
      specialize (H13 _ eq_refl). lia.
  Qed.

  Lemma tab_step r o : good_tab r -> step m text r = Ok o ->
    match o with
    | Go r' => good_tab r'
    | Stop r' => exists r2, process_last_line m text r' = Ok r2 /\ rev (r_out r2) = F st lang 0 pre
    end.
  Proof.
    intros (a & L & c & e & t & Hm & Hinv & HLN & Hat) Hs.
    destruct (Z.eq_dec L N) as [HL|HL].
    - destruct (Hat HL) as (Hp & Hcs & Hlc & Hwc). clear Hat.
      destruct Htab as (q & cl & Hq & Hcl & Hrow).
      unfold step in Hs. rewrite (I_cs _ _ _ _ _ _ _ _ _ _ _ Hinv), Hcs in Hs. unfold dfa_of in Hs. rewrite Hd in Hs.
      cbn [bind] in Hs. unfold state_of in Hs. rewrite Hq in Hs. cbn [bind] in Hs.
      assert (Hlen : r_p r <> zlen text) by (rewrite app_length; cbn [length]; lia).
      apply Z.eqb_neq in Hlen. rewrite Hlen in Hs. cbv zeta in Hs. unfold is_scan_start in Hs.
      rewrite Hscan, Pos.eqb_refl in Hs. cbn [andb] in Hs. cbn [r_p set_ts] in Hs.
      assert (Hc : src text (r_p r) = Ok 11).
      { unfold src. rewrite Hp. destruct (N <? 0) eqn:E; [apply Z.ltb_lt in E; lia|].
        rewrite nth_error_app2 by (lia).
        replace (Z.to_nat N - length pre)%nat with 0%nat by (lia). reflexivity. }
      rewrite Hc in Hs. cbn [bind] in Hs. change (Z.to_pos (11 + 1)) with 12%positive in Hs.
      rewrite Hcl in Hs. cbn [bind] in Hs. rewrite Hrow in Hs. cbn in Hs. injection Hs as <-.
      unfold process_last_line. cbn [r_wlc r_lcc set_cs set_ts].
      rewrite (I_wlc _ _ _ _ _ _ _ _ _ _ _ Hinv), (I_lcc _ _ _ _ _ _ _ _ _ _ _ Hinv), Hlc, Hwc. cbn [orb].
      eexists. split; [reflexivity|]. cbn [r_out set_cs set_ts].
      pose proof (I_F _ _ _ _ _ _ _ _ _ _ _ Hinv) as HF. rewrite HL in HF.
      replace (Z.to_nat N) with (length pre) in HF by (lia).
      rewrite skipn_app, skipn_all, Nat.sub_diag in HF. cbn [app skipn] in HF.
      rewrite (F_prefix st lang (11 :: post) (length pre)) in HF by auto.
      rewrite Z.add_0_l in HF. apply app_inv_tail in HF. auto.
    - destruct (inside _ _ _ _ _ _ Hinv ltac:(lia)) as (H1 & H2 & H3).
      pose proof (I_L _ _ _ _ _ _ _ _ _ _ _ Hinv). pose proof (I_p _ _ _ _ _ _ _ _ _ _ _ Hinv).
      pose proof (step_inv st lang m text Hclean d Hd Hscan Hlang tb Htb a r o L c e t Hm Hinv) as Hst.
      specialize (Hst ltac:(intros b Hb; rewrite text_at in Hb by (lia); apply Hby; eapply nth_error_In; eauto) Hs).
      destruct o as [r'|r'].
      + destruct Hst as (b & L' & c' & e' & t' & Hm' & Hi' & Hmv). exists b, L', c', e', t'.
        split; auto. split; auto. destruct Hmv as [->|(-> & E1 & E2 & E3 & E4)].
        * split; [lia|]. intros; lia.
        * split; [lia|]. intros E. split; [lia|auto].
      + exfalso. (* stops only at the end of the text *)
        unfold step in Hs. rewrite (I_cs _ _ _ _ _ _ _ _ _ _ _ Hinv) in Hs. unfold dfa_of in Hs. rewrite Hd in Hs.
        cbn [bind] in Hs. unfold state_of in Hs. pose proof (Htb _ Hm) as Hck. unfold check_state in Hck.
        destruct (PM.find (a_cs a) (df_sts d)) as [q|]; [|discriminate]. cbn [bind] in Hs.
        assert (Hlen : r_p r <> zlen text) by (rewrite app_length; cbn [length]; lia).
        pose proof Hlen as Hlen'. apply Z.eqb_neq in Hlen'. rewrite Hlen' in Hs. cbv zeta in Hs. unfold is_scan_start in Hs.
        rewrite Hscan in Hs. cbn [andb] in Hs.
        assert (Hrp : r_p (if Pos.eqb (a_cs a) (df_start d) then set_ts (Some (r_p r)) r else r) = r_p r)
          by (destruct (Pos.eqb _ _); reflexivity).
        rewrite Hrp in Hs. unfold src in Hs. destruct (r_p r <? 0) eqn:E0; [apply Z.ltb_lt in E0; lia|].
        destruct (nth_error text (Z.to_nat (r_p r))) as [ch|] eqn:Ech.
        2: { rewrite Hlen' in Hs. discriminate Hs. }
        cbn [bind] in Hs.
        destruct (PM.find (Z.to_pos (ch + 1)) (m_class m)) as [cl|] eqn:Ecl; [|discriminate Hs]. cbn [bind] in Hs.
        destruct (nth_error (q_row q) cl) as [br|] eqn:Ebr; [|discriminate Hs]. cbn [bind] in Hs.
        apply andb_prop in Hck as [Hck1 _]. rewrite forallb_forall in Hck1.
        specialize (Hck1 ch ltac:(rewrite text_at in Ech by (lia); apply Hby; eapply nth_error_In; eauto)).
        destruct (on_byte st lang m d q a ch) as [bs|] eqn:Eon; [|discriminate].
        destruct (byte_ok st lang m text Hclean d Hd Hscan _ _ _ _ _ _ _ _ _ _ _ Hinv Ech Hlen Ecl Ebr Eon)
          as (ed & b & to & r2 & r1 & L' & c' & e' & t' & E1 & E2 & E3 & E4 & E5 & Hi & Hmv).
        rewrite E1 in Hs. cbn [bind] in Hs. rewrite E3 in Hs. cbn [option_map] in Hs.
        unfold begin in E4. rewrite E4 in Hs. cbn [bind] in Hs. rewrite E5 in Hs. discriminate Hs.
  Qed.

  Lemma tab_loop fuel : forall r r', good_tab r -> loop m text fuel r = Ok r' ->
    exists r2, process_last_line m text r' = Ok r2 /\ rev (r_out r2) = F st lang 0 pre.
  Proof.
    induction fuel as [|fuel IH]; cbn [loop]; intros r r' Hg Hl; [discriminate Hl|].
    destruct (step m text r) as [o| |] eqn:Es; cbn [bind] in Hl; try discriminate Hl.
    pose proof (tab_step _ _ Hg Es) as H. destruct o as [r1|r1]; [eauto|]. injection Hl as <-. exact H.
  Qed.

  Lemma tab_start : t_mem tb (start_state d) = true -> forall r, start m = Ok r -> good_tab r.
  Proof.
    intros Hm r Hs. unfold start, entry, dfa_of in Hs. rewrite Hd in Hs. cbn [bind] in Hs. injection Hs as <-.
    destruct (first_line (skipn (Z.to_nat 0) text)) as [[c e] t] eqn:El.
    exists (start_state d), 0, c, e, t. split; auto. split.
    - constructor; cbn; auto; try lia; try constructor. rewrite Pos.eqb_refl. auto.
    - split; [lia|]. intros HN. cbn. auto.
  Qed.
End Tab.

Lemma item_eqb_eq a b : item_eqb a b = true -> a = b.
Proof. destruct a, b; cbn; try discriminate; destruct (list_eq_dec _ _ _); congruence. Qed.

Lemma list_eqb_eq {A} (f : A -> A -> bool) : (forall x y, f x y = true -> x = y) ->
  forall l k, list_eqb f l k = true -> l = k.
Proof.
  intros Hf. induction l as [|x l IH]; destruct k as [|y k]; cbn; intros H; try discriminate; auto.
  apply andb_prop in H as [H1 H2]. f_equal; auto.
Qed.

Lemma rule_eqb_eq a b : rule_eqb a b = true -> a = b.
Proof.
  destruct a, b; cbn; try discriminate.
  - intros H. f_equal. revert H. apply list_eqb_eq. apply list_eqb_eq. apply item_eqb_eq.
  - destruct (list_eq_dec _ _ _); congruence.
Qed.

Lemma phase_eqb_eq a b : phase_eqb a b = true -> a = b.
Proof.
  destruct a, b; cbn; try discriminate; auto; intros H; f_equal; [apply rule_eqb_eq|apply kind_eqb_eq]; auto.
Qed.

Lemma oeqb_eq {A} (f : A -> A -> bool) : (forall x y, f x y = true -> x = y) ->
  forall a b, oeqb f a b = true -> a = b.
Proof. intros Hf [x|] [y|]; cbn; intros H; try discriminate; auto. f_equal; auto. Qed.

Lemma ast_eqb_eq a b : ast_eqb a b = true -> a = b.
Proof.
  destruct a as [x1 x2 x3 x4 x5 x6 x7 x8 x9 x10 x11], b as [y1 y2 y3 y4 y5 y6 y7 y8 y9 y10 y11].
  unfold ast_eqb. cbn [a_cs a_lcc a_wlc a_ls a_ph a_ent a_act a_te a_inq a_cr a_nx]. intros H. dand.
  f_equal;
    repeat match goal with
    | H : Pos.eqb _ _ = true |- _ => apply Pos.eqb_eq in H
    | H : eqb _ _ = true |- _ => apply eqb_prop in H
    | H : phase_eqb _ _ = true |- _ => apply phase_eqb_eq in H
    end; auto.
  - eapply oeqb_eq; [|eassumption]. apply Z.eqb_eq.
  - eapply oeqb_eq; [|eassumption]. apply Nat.eqb_eq.
  - eapply oeqb_eq; [|eassumption]. intros [[? ?] ?] [[? ?] ?]. cbn. intros. dand.
    repeat match goal with H : eqb _ _ = true |- _ => apply eqb_prop in H end. congruence.
  - repeat match goal with H : match ?x with _ => _ end = true |- _ => destruct x; try discriminate H end; auto;
    match goal with |- ?x = ?y => destruct x, y; auto; discriminate end.
  - match goal with |- ?x = ?y => destruct x, y; auto; try discriminate end.
    f_equal. apply Nat.eqb_eq. auto.
Qed.

Lemma line_check_parts st lang m tb : line_check st lang m tb = true -> exists d,
  nth_error (m_dfas m) 0 = Some d /\ df_scan d = true /\ clean st = true /\ m_lang m = lang
  /\ t_mem tb (start_state d) = true /\ forall a, t_mem tb a = true -> check_state st lang m d tb a = true.
Proof.
  intros Hck. unfold line_check in Hck. destruct (m_dfas m) as [|d l] eqn:Ed; [discriminate|]. dand.
  exists d. split; [reflexivity|]. split; [auto|]. split; [auto|]. split; [apply String.eqb_eq; auto|]. split; [auto|].
  intros a Ha. match goal with H : forallb _ (PM.elements tb) = true |- _ => rename H into Hall end.
  unfold t_mem in Ha. destruct (PM.find (a_cs a) tb) as [k|] eqn:Ef; [|discriminate].
  apply existsb_exists in Ha as (b & Hb & Hab). apply ast_eqb_eq in Hab. subst b.
  rewrite forallb_forall in Hall. apply PM.find_2, PM.elements_1, SetoidList.InA_alt in Ef.
  destruct Ef as ([k1 k2] & Hk & Hin). destruct Hk as [Hk1 Hk2]. cbn in Hk1, Hk2. unfold PM.E.eq in *. subst k2.
  specialize (Hall _ Hin). cbn [snd] in Hall. rewrite forallb_forall in Hall.
  specialize (Hall _ Hb). dand. auto.
Qed.

Lemma line_check_ok st lang m tb text fuel es :
  line_check st lang m tb = true ->
  (forall b, In b text -> In b the_bytes) ->
  parse m text fuel = Ok es -> es = count_lines st lang text.
Proof.
  intros Hck Hby Hp. destruct (line_check_parts _ _ _ _ Hck) as (d & Hd & Hsc & Hcl & Hla & Hst & Htb).
  assert (Hby' : forall i b, nth_error text i = Some b -> In b the_bytes)
    by (intros i b Hi; apply Hby; eapply nth_error_In; eauto).
  unfold parse in Hp. destruct (start m) as [r0| |] eqn:Es; cbn [bind] in Hp; try discriminate Hp.
  destruct (loop m text fuel r0) as [r1| |] eqn:El; cbn [bind] in Hp; try discriminate Hp.
  assert (Hg : good st lang m text d tb r0) by (eapply start_good; eauto).
  destruct (loop_ok st lang m text Hcl d Hd Hsc Hla tb Htb Hby' fuel r0 r1 Hg El) as (r2 & E2 & Hout).
  rewrite E2 in Hp. cbn [bind] in Hp. injection Hp as <-. exact Hout.
Qed.

(** The start state of the scanner has no way on for a vertical tab. *)
Definition tab_check (m : machine) : bool :=
  match m_dfas m with
  | d :: _ =>
    match PM.find (df_start d) (df_sts d), PM.find 12%positive (m_class m) with
    | Some q, Some cl =>
      match nth_error (q_row q) cl with Some (BEdge (mkEdge None [])) => true | _ => false end
    | _, _ => false
    end
  | [] => false
  end.

Lemma tab_check_ok st lang m tb pre post fuel es :
  line_check st lang m tb = true -> tab_check m = true -> whole_lines pre ->
  (forall b, In b pre -> In b the_bytes) ->
  parse m (pre ++ 11 :: post) fuel = Ok es -> es = count_lines st lang pre.
Proof.
  intros Hck Htc Hpre Hby Hp. destruct (line_check_parts _ _ _ _ Hck) as (d & Hd & Hsc & Hcl & Hla & Hst & Htb).
  assert (Htab : exists q cl, PM.find (df_start d) (df_sts d) = Some q /\ PM.find 12%positive (m_class m) = Some cl
    /\ nth_error (q_row q) cl = Some (BEdge (mkEdge None []))).
  { unfold tab_check in Htc. destruct (m_dfas m) as [|d' l]; [discriminate|]. injection Hd as ->.
    destruct (PM.find (df_start d) (df_sts d)) as [q|]; [|discriminate].
    destruct (PM.find 12%positive (m_class m)) as [cl|]; [|discriminate].
    exists q, cl. split; auto. split; auto. destruct (nth_error (q_row q) cl) as [[[[to|] [|i l0]]|]|]; try discriminate. auto. }
  unfold parse in Hp. destruct (start m) as [r0| |] eqn:Es; cbn [bind] in Hp; try discriminate Hp.
  destruct (loop m (pre ++ 11 :: post) fuel r0) as [r1| |] eqn:El; cbn [bind] in Hp; try discriminate Hp.
  assert (Hg : good_tab st lang m pre post d tb r0) by (eapply tab_start; eauto).
  destruct (tab_loop st lang m pre post Hcl d Hd Hsc Hla tb Htb Hpre Hby Htab fuel r0 r1 Hg El) as (r2 & E2 & Hout).
  rewrite E2 in Hp. cbn [bind] in Hp. injection Hp as <-. exact Hout.
Qed.
