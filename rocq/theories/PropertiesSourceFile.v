(** Properties C27, C28: the SourceFile object (sourcefile.c). *)
From Coq Require Import ZArith String List Bool Lia.
From Verif Require Import Base LocModel ParsedModel ParsedSpec SourceFileModel.
Import ListNotations.
Open Scope string_scope.
Open Scope Z_scope.
Open Scope list_scope.

Lemma nth_error_skipn {A} (l : list A) n k : nth_error (skipn n l) k = nth_error l (n + k).
Proof. revert l. induction n as [|n IH]; intros [|x l]; cbn; auto. destruct k; auto. Qed.
Lemma nth_error_firstn {A} (l : list A) n k : (k < n)%nat -> nth_error (firstn n l) k = nth_error l k.
Proof. revert l k. induction n as [|n IH]; intros [|x l] [|k] H; cbn; auto; try lia. apply IH. lia. Qed.

Ltac sp := repeat (match goal with |- _ /\ _ => split end; [solve [auto | discriminate | congruence | intros ? ->; contradiction | intros ? [= <-]; auto | lia]|]).

Section Properties.
  Variable lic : Type.
  Variable det_reads : sf lic -> bool.
  Variable det : sf lic -> option (list Z) -> option string.
  Variable language_at : string -> option string.
  Variable parser_of : string -> option (list Z -> list event).
  Variable licenses_of : list plang -> lic.

  Notation step := (step lic det_reads det language_at parser_of licenses_of).
  Notation run := (run lic det_reads det language_at parser_of licenses_of).
  Notation sf := (sf lic).
  Notation answer := (answer lic).

  (** [answered ops outs i d o e a]: the i-th call is [o], made while the disk is
      [d]; it has the effects [e] and the answer [a]. *)
  Definition answered (ops : list (disk * op)) (outs : list (list effect * answer))
             (i : nat) (d : disk) (o : op) (e : list effect) (a : answer) : Prop :=
    nth_error ops i = Some (d, o) /\ nth_error outs i = Some (e, a).

  (** * Induction over sessions *)
  Lemma run_app f a b : run f (a ++ b) =
    ('(f1, o1) <- run f a ;; '(f2, o2) <- run f1 b ;; Ok (f2, o1 ++ o2)).
  Proof.
    revert f. induction a as [|[d o] a IH]; intros f; cbn [SourceFileModel.run app].
    - cbn [bind]. destruct (run f b) as [[f2 o2]|w|]; auto.
    - destruct (step d f o) as [[[f1 e] an]|w|]; cbn [bind]; auto. rewrite IH.
      destruct (run f1 a) as [[f2 o2]|w|]; cbn [bind]; auto.
      destruct (run f2 b) as [[f3 o3]|w|]; cbn [bind]; auto.
  Qed.

  (** The state before and after a call of the session. *)
  Lemma run_at ops : forall f f' outs i d o e a, run f ops = Ok (f', outs) ->
    answered ops outs i d o e a ->
    exists f1 f2, run f (firstn i ops) = Ok (f1, firstn i outs) /\ step d f1 o = Ok (f2, e, a) /\
      run f2 (skipn (S i) ops) = Ok (f', skipn (S i) outs).
  Proof.
    induction ops as [|[d0 o0] ops IH]; intros f f' outs i d o e a E [H1 H2].
    - destruct i; discriminate.
    - cbn [SourceFileModel.run] in E. destruct (step d0 f o0) as [[[f1 e1] a1]|w|] eqn:Es; cbn [bind] in E; try discriminate.
      destruct (run f1 ops) as [[f2 outs']|w|] eqn:Er; cbn [bind] in E; try discriminate. injection E as <- <-.
      destruct i as [|i]; cbn in H1, H2.
      + injection H1 as -> ->. injection H2 as -> ->. exists f, f1. auto.
      + destruct (IH _ _ _ i d o e a Er) as (g1 & g2 & A & B & C); [split; auto|].
        exists g1, g2. split; [|split; auto]. cbn [firstn SourceFileModel.run]. rewrite Es. cbn [bind]. rewrite A. auto.
  Qed.

  Lemma run_length ops : forall f f' outs, run f ops = Ok (f', outs) -> length outs = length ops.
  Proof.
    induction ops as [|[d o] ops IH]; intros f f' outs E; cbn [SourceFileModel.run] in E.
    - injection E as <- <-. auto.
    - destruct (step d f o) as [[[f1 e] a]|w|]; cbn [bind] in E; try discriminate.
      destruct (run f1 ops) as [[f2 o2]|w|] eqn:Er; cbn [bind] in E; try discriminate. injection E as <- <-.
      cbn. f_equal. eauto.
  Qed.

  (** A field that, once set, stays. *)
  Section Sticky.
    Context {X : Type}.
    Variable get : sf -> option X.
    Variable says : answer -> option X.
    Variable ok : op -> bool.             (* calls that do not overwrite it *)
    Hypothesis keeps : forall d f o f' e a x, ok o = true -> step d f o = Ok (f', e, a) -> get f = Some x -> get f' = Some x.
    Hypothesis sets : forall d f o f' e a x, step d f o = Ok (f', e, a) -> says a = Some x -> get f' = Some x.

    Lemma sticky_keeps ops : forall f f' outs x, run f ops = Ok (f', outs) ->
      Forall (fun p => ok (snd p) = true) ops -> get f = Some x -> get f' = Some x.
    Proof.
      induction ops as [|[d o] ops IH]; intros f f' outs x E Hok Hx; cbn [SourceFileModel.run] in E.
      - injection E as <- <-. auto.
      - inversion Hok; subst. destruct (step d f o) as [[[f1 e] a]|w|] eqn:Es; cbn [bind] in E; try discriminate.
        destruct (run f1 ops) as [[f2 o2]|w|] eqn:Er; cbn [bind] in E; try discriminate. injection E as <- <-.
        eapply IH; eauto.
    Qed.

    Lemma sticky ops f f' outs i j di oi ei ai dj oj ej aj x y : run f ops = Ok (f', outs) ->
      (i < j)%nat -> answered ops outs i di oi ei ai -> answered ops outs j dj oj ej aj ->
      (forall k d o, (i < k <= j)%nat -> nth_error ops k = Some (d, o) -> ok o = true) ->
      says ai = Some x -> says aj = Some y -> x = y.
    Proof.
      intros E L Hi Hj Hok Hx Hy.
      destruct (run_at _ _ _ _ _ _ _ _ _ E Hi) as (f1 & f2 & _ & Si & Ri).
      assert (Hj' : answered (skipn (S i) ops) (skipn (S i) outs) (j - S i) dj oj ej aj).
      { destruct Hj as [J1 J2]. unfold answered. rewrite !nth_error_skipn.
        replace (S i + (j - S i))%nat with j by lia. auto. }
      destruct (run_at _ _ _ _ _ _ _ _ _ Ri Hj') as (f3 & f4 & R3 & S3 & _).
      assert (G2 : get f2 = Some x) by eauto.
      assert (G3 : get f3 = Some x).
      { eapply sticky_keeps; eauto. apply Forall_forall. intros [d o] Hin.
        apply In_nth_error in Hin as [k Hk].
        assert ((k < j - S i)%nat).
        { assert (k < length (firstn (j - S i) (skipn (S i) ops)))%nat by (apply nth_error_Some; congruence).
          rewrite firstn_length in H. lia. }
        rewrite nth_error_firstn in Hk by auto. rewrite nth_error_skipn in Hk. cbn.
        apply (Hok (S i + k)%nat d); [lia|auto]. }
      assert (ok oj = true) by (destruct Hj as [J1 _]; apply (Hok j dj); [lia|auto]).
      assert (get f4 = Some x) by eauto. assert (get f4 = Some y) by eauto. congruence.
    Qed.
  End Sticky.

  (** * Fields and effects of the calls *)
  Notation get_contents := (get_contents lic).
  Notation get_language := (get_language lic det_reads det).
  Notation ohcount_parse := (ohcount_parse lic det_reads det parser_of).
  Notation sf_parse := (sf_parse lic det_reads det parser_of).
  Notation fl_language := (f_language lic).
  Notation fl_detected := (f_detected lic).
  Notation fl_parsed := (f_parsed lic).
  Notation fl_license := (f_license lic).
  Notation fl_loc := (f_loc lic).
  Notation fl_contents := (f_contents lic).
  Notation fl_size := (f_size lic).

  Definition is_read (e : effect) : Prop := match e with Read _ => True | _ => False end.

  Lemma get_contents_facts d f f' e c : get_contents d f = (f', e, c) ->
    fl_language f' = fl_language f /\ fl_detected f' = fl_detected f /\ fl_parsed f' = fl_parsed f /\
    fl_license f' = fl_license f /\ fl_loc f' = fl_loc f /\ fl_contents f' = c /\
    (forall x, fl_contents f = Some x -> f' = f /\ e = [] /\ c = Some x) /\ Forall is_read e /\
    (c = None -> fl_size f' = 0) /\ (forall x, fl_contents f = None -> c = Some x -> fl_size f' = Z.of_nat (length x)).
  Proof.
    unfold SourceFileModel.get_contents. destruct (fl_contents f) as [x|] eqn:Ec.
    - intros [= <- <- <-]. repeat split; auto; try discriminate; congruence.
    - set (path := match f_diskpath lic f with Some p => p | None => f_path lic f end).
      destruct (d path) as [x|]; [destruct (Z.eqb_spec (Z.of_nat (length x)) 0)|]; intros [= <- <- <-]; cbn;
        repeat split; auto; try discriminate; repeat constructor; intros y _ [= <-]; auto.
  Qed.

  Lemma get_language_facts d f f' e g : get_language d f = (f', e, g) ->
    fl_language f' = g /\ fl_detected f' = true /\ fl_parsed f' = fl_parsed f /\
    fl_license f' = fl_license f /\ fl_loc f' = fl_loc f /\
    (fl_detected f = true -> f' = f /\ e = [] /\ g = fl_language f) /\
    (fl_detected f = false -> exists e', e = e' ++ [Detect] /\ Forall is_read e') /\
    (forall x, fl_contents f = Some x -> fl_contents f' = Some x /\ fl_size f' = fl_size f /\ forall p, ~ In (Read p) e).
  Proof.
    unfold SourceFileModel.get_language. destruct (fl_detected f) eqn:Ed.
    - intros [= <- <- <-]. sp. intros x Hx. auto.
    - cbv zeta. destruct (det_reads f).
      + destruct (get_contents d f) as [[f1 e1] c] eqn:Eg. apply get_contents_facts in Eg as (A & B & C & D & E & F & G & H & _).
        intros [= <- <- <-]. cbn. sp. split; [eauto|].
        intros x Hx. destruct (G x Hx) as (-> & -> & ->). split; auto. split; auto. intros p [Hp|[]]. discriminate.
      + intros [= <- <- <-]. cbn. sp. split; [exists []; auto|].
        intros x Hx. split; auto. split; auto. intros p [Hp|[]]. discriminate.
  Qed.

  Definition count (P : effect -> bool) (e : list effect) : nat := length (filter P e).
  Definition is_detect (e : effect) : bool := match e with Detect => true | _ => false end.
  Definition is_license (e : effect) : bool := match e with License => true | _ => false end.
  Definition is_scan (e : effect) : bool := match e with Scan _ _ => true | _ => false end.
  Definition not_detected (f : sf) : nat := if fl_detected f then 0%nat else 1%nat.

  Lemma count_app P a b : count P (a ++ b) = (count P a + count P b)%nat.
  Proof. unfold count. rewrite filter_app, app_length. auto. Qed.

  Lemma reads_count P e : (forall p, P (Read p) = false) -> Forall is_read e -> count P e = 0%nat.
  Proof.
    intros HP. unfold count. induction 1 as [|x e Hx _ IH]; cbn; auto.
    destruct x; try contradiction. rewrite HP. auto.
  Qed.

  Lemma get_language_count d f f' e g : get_language d f = (f', e, g) ->
    count is_detect e = not_detected f /\ count is_license e = 0%nat /\ count is_scan e = 0%nat.
  Proof.
    intros E. apply get_language_facts in E as (_ & _ & _ & _ & _ & A & B & _). unfold not_detected.
    destruct (fl_detected f) eqn:Ed.
    - destruct (A eq_refl) as (_ & -> & _). auto.
    - destruct (B eq_refl) as (e' & -> & H). rewrite !count_app, !(reads_count _ e') by auto. auto.
  Qed.

  Lemma ohcount_parse_facts d f f' e es : ohcount_parse d f = (f', e, es) ->
    fl_detected f' = true /\ fl_parsed f' = fl_parsed f /\ fl_license f' = fl_license f /\ fl_loc f' = fl_loc f /\
    (fl_detected f = true -> fl_language f' = fl_language f) /\
    count is_detect e = not_detected f /\ count is_license e = 0%nat /\ (count is_scan e <= 1)%nat /\
    (forall x, fl_contents f = Some x -> fl_size f = Z.of_nat (length x) ->
       fl_contents f' = Some x /\ fl_size f' = fl_size f /\ forall p, ~ In (Read p) e).
  Proof.
    unfold SourceFileModel.ohcount_parse. destruct (get_language d f) as [[f1 e1] g] eqn:E1.
    pose proof (get_language_count _ _ _ _ _ E1) as (C1 & C2 & C3).
    apply get_language_facts in E1 as (L1 & L2 & L3 & L4 & L5 & L6 & L7 & L8).
    assert (Hend : (f1, e1, @nil event) = (f', e, es) ->
      fl_detected f' = true /\ fl_parsed f' = fl_parsed f /\ fl_license f' = fl_license f /\ fl_loc f' = fl_loc f /\
    (fl_detected f = true -> fl_language f' = fl_language f) /\
    count is_detect e = not_detected f /\ count is_license e = 0%nat /\ (count is_scan e <= 1)%nat /\
    (forall x, fl_contents f = Some x -> fl_size f = Z.of_nat (length x) ->
       fl_contents f' = Some x /\ fl_size f' = fl_size f /\ forall p, ~ In (Read p) e)).
    { intros [= <- <- <-]. rewrite C1, C2, C3. sp.
      split; [intros H; destruct (L6 H) as (-> & _); auto|]. sp. intros x Hx _. auto. }
    destruct g as [g|]; [|exact Hend]. destruct (parser_of g) as [parser|]; [|exact Hend]. clear Hend.
    destruct (get_contents d f1) as [[f2 e2] c] eqn:E2. apply get_contents_facts in E2 as (A1 & A2 & A3 & A4 & A5 & A6 & A7 & A8 & A9 & A10).
    unfold SourceFileModel.get_contents_size.
    assert (exists f3 e3 n, (if fl_size f2 <? 0 then let '(f, e, _) := get_contents d f2 in (f, e, fl_size f) else (f2, [], fl_size f2)) = (f3, e3, n) /\
      fl_language f3 = fl_language f2 /\ fl_detected f3 = fl_detected f2 /\ fl_parsed f3 = fl_parsed f2 /\ fl_license f3 = fl_license f2 /\ fl_loc f3 = fl_loc f2 /\
      Forall is_read e3 /\ (0 <= fl_size f2 -> f3 = f2 /\ e3 = [])) as (f3 & e3 & n & E3 & B1 & B2 & B3 & B4 & B5 & B6 & B7).
    { destruct (Z.ltb_spec (fl_size f2) 0) as [Hs|Hs].
      - destruct (get_contents d f2) as [[f3 e3] c'] eqn:E3. apply get_contents_facts in E3 as (D1 & D2 & D3 & D4 & D5 & D6 & D7 & D8 & _).
        exists f3, e3, (fl_size f3). sp. intros; lia.
      - exists f2, [], (fl_size f2). sp. auto. }
    rewrite E3. intros [= <- <- <-].
    rewrite !count_app, C1, C2, C3, !(reads_count _ e2), !(reads_count _ e3) by auto. cbn.
    sp. split; [|split; [lia|split; [lia|split; [lia|]]]].
    - intros H. destruct (L6 H) as (-> & _). congruence.
    - intros x Hx Hs. destruct (L8 x Hx) as (M1 & M2 & M3). destruct (A7 x M1) as (-> & -> & ->).
      destruct B7 as [-> ->]; [lia|]. split; auto. split; auto. intros p. cbn. rewrite in_app_iff. intros [Hp|[Hp|[]]].
      + apply (M3 p). auto.
      + discriminate.
  Qed.

  Lemma sf_parse_facts d f f' e : sf_parse d f = Ok (f', e) ->
    exists l, fl_parsed f' = Some l /\
    (forall l', fl_parsed f = Some l' -> f' = f /\ e = []) /\
    (fl_parsed f = None -> fl_contents f' = None) /\
    fl_license f' = fl_license f /\ fl_loc f' = fl_loc f /\
    (fl_detected f = true -> fl_detected f' = true /\ fl_language f' = fl_language f) /\
    (count is_detect e + not_detected f' <= not_detected f)%nat /\ count is_license e = 0%nat /\
    (count is_scan e <= match fl_parsed f with None => 1 | Some _ => 0 end)%nat.
  Proof.
    unfold SourceFileModel.sf_parse. destruct (fl_parsed f) as [l|] eqn:Ep.
    - intros [= <- <-]. exists l. sp. cbn. lia.
    - destruct (ohcount_parse d f) as [[f1 e1] es] eqn:E1.
      apply ohcount_parse_facts in E1 as (A1 & A2 & A3 & A4 & A5 & A6 & A7 & A8 & _).
      destruct (run_callbacks _ [] es) as [l|w|]; cbn [bind]; try discriminate. intros [= <- <-]. exists l. cbn.
      unfold not_detected at 1. cbn. rewrite A1. split; auto. split; [discriminate|]. sp.
      auto.
  Qed.

  (** One step. *)
  Definition changes_language (o : op) : bool :=
    match o with SetLanguage g => match language_at g with Some _ => true | None => false end | _ => false end.
  Definition parses (o : op) : bool :=
    match o with GetParsed | GetLicense | GetLoc => true | _ => false end.
  Definition some_zero {A} (o : option A) : nat := match o with None => 1%nat | Some _ => 0%nat end.

  Lemma step_facts d f o f' e a : step d f o = Ok (f', e, a) ->
    (forall l, fl_parsed f = Some l -> fl_parsed f' = Some l) /\
    (forall l, fl_license f = Some l -> fl_license f' = Some l) /\
    (forall l, fl_loc f = Some l -> fl_loc f' = Some l) /\
    (changes_language o = false -> fl_detected f = true -> fl_detected f' = true /\ fl_language f' = fl_language f) /\
    (forall l, a = AParsed lic l -> fl_parsed f' = Some l) /\
    (forall l, a = ALicense lic l -> fl_license f' = Some l) /\
    (forall l, a = ALoc lic l -> fl_loc f' = Some l) /\
    (forall g, a = ALanguage lic g -> fl_detected f' = true /\ fl_language f' = g) /\
    (count is_detect e + not_detected f' <= not_detected f)%nat /\
    (count is_license e + some_zero (fl_license f') <= some_zero (fl_license f))%nat /\
    (o <> ParseWithCallback -> count is_scan e + some_zero (fl_parsed f') <= some_zero (fl_parsed f))%nat.
  Proof.
    assert (Hkeep : forall f1 f2 : sf, fl_language f2 = fl_language f1 -> fl_detected f2 = fl_detected f1 ->
      fl_parsed f2 = fl_parsed f1 -> fl_license f2 = fl_license f1 -> fl_loc f2 = fl_loc f1 -> forall e0 a0, Forall is_read e0 ->
      (match a0 with AParsed _ _ | ALicense _ _ | ALoc _ _ | ALanguage _ _ => False | _ => True end) ->
    (forall l, fl_parsed f1 = Some l -> fl_parsed f2 = Some l) /\
    (forall l, fl_license f1 = Some l -> fl_license f2 = Some l) /\
    (forall l, fl_loc f1 = Some l -> fl_loc f2 = Some l) /\
    (changes_language o = false -> fl_detected f1 = true -> fl_detected f2 = true /\ fl_language f2 = fl_language f1) /\
    (forall l, a0 = AParsed lic l -> fl_parsed f2 = Some l) /\
    (forall l, a0 = ALicense lic l -> fl_license f2 = Some l) /\
    (forall l, a0 = ALoc lic l -> fl_loc f2 = Some l) /\
    (forall g, a0 = ALanguage lic g -> fl_detected f2 = true /\ fl_language f2 = g) /\
    (count is_detect e0 + not_detected f2 <= not_detected f1)%nat /\
    (count is_license e0 + some_zero (fl_license f2) <= some_zero (fl_license f1))%nat /\
    (o <> ParseWithCallback -> count is_scan e0 + some_zero (fl_parsed f2) <= some_zero (fl_parsed f1))%nat).
    { intros f1 f2 H1 H2 H3 H4 H5 e0 a0 He Ha. unfold not_detected. rewrite !reads_count by auto. rewrite H1, H2, H3, H4, H5.
      sp. lia. }
    destruct o as [p|s| | |g| | | | |]; cbn [SourceFileModel.step]; intros E.
    - injection E as <- <- <-. apply Hkeep; cbn; auto.
    - injection E as <- <- <-. apply Hkeep; cbn; auto.
    - destruct (get_contents d f) as [[f1 e1] c] eqn:E1. injection E as <- <- <-.
      apply get_contents_facts in E1 as (A1 & A2 & A3 & A4 & A5 & A6 & A7 & A8 & _). apply Hkeep; cbn; auto.
    - unfold get_contents_size in E. destruct (fl_size f <? 0).
      + destruct (get_contents d f) as [[f1 e1] c] eqn:E1. injection E as <- <- <-.
        apply get_contents_facts in E1 as (A1 & A2 & A3 & A4 & A5 & A6 & A7 & A8 & _). apply Hkeep; cbn; auto.
      + injection E as <- <- <-. apply Hkeep; cbn; auto.
    - injection E as <- <- <-. unfold set_language, changes_language, not_detected. destruct (language_at g); cbn;
        sp; try lia; destruct (fl_detected f); lia.
    - destruct (get_language d f) as [[f1 e1] g] eqn:E1. injection E as <- <- <-.
      pose proof (get_language_count _ _ _ _ _ E1) as (C1 & C2 & C3).
      apply get_language_facts in E1 as (A1 & A2 & A3 & A4 & A5 & A6 & A7 & _). unfold not_detected at 1.
      rewrite A2, A3, A4, A5, C1, C2, C3.
      sp. split.
      { intros _ H. destruct (A6 H) as (-> & _). auto. }
      sp. lia.
    - unfold get_parsed in E. destruct (sf_parse d f) as [[f1 e1]|w|] eqn:E1; cbn [bind] in E; try discriminate.
      apply sf_parse_facts in E1 as (l & A1 & A2 & A3 & A4 & A5 & A6 & A7 & A8 & A9).
      rewrite A1 in E. cbn [bind] in E. injection E as <- <- <-. rewrite A1, A4, A5, A8. cbn.
      split; [intros l0 H; destruct (A2 _ H) as (-> & _); congruence|]. sp.
      intros _. unfold some_zero. destruct (fl_parsed f); lia.
    - destruct (ohcount_parse d f) as [[f1 e1] es] eqn:E1. injection E as <- <- <-.
      apply ohcount_parse_facts in E1 as (A1 & A2 & A3 & A4 & A5 & A6 & A7 & A8 & _).
      unfold not_detected at 1. rewrite A1, A2, A3, A4, A7.
      sp. congruence.
    - unfold get_license in E. destruct (fl_license f) as [l0|] eqn:El.
      + injection E as <- <- <-. rewrite El. sp. cbn. lia.
      + unfold get_parsed in E. destruct (sf_parse d f) as [[f1 e1]|w|] eqn:E1; cbn [bind] in E; try discriminate.
        apply sf_parse_facts in E1 as (l & A1 & A2 & A3 & A4 & A5 & A6 & A7 & A8 & A9).
        rewrite A1 in E. cbn [bind] in E. injection E as <- <- <-. cbn. rewrite !count_app, A8, A5. cbn.
        unfold not_detected at 1. cbn. fold (not_detected f1).
        split; [intros l0 H; destruct (A2 _ H) as (-> & _); congruence|]. sp.
        intros _. rewrite A1. unfold some_zero. destruct (fl_parsed f); lia.
    - unfold get_loc in E. destruct (fl_loc f) as [l0|] eqn:El.
      + injection E as <- <- <-. rewrite El. sp. cbn. lia.
      + unfold get_parsed in E. destruct (sf_parse d f) as [[f1 e1]|w|] eqn:E1; cbn [bind] in E; try discriminate.
        apply sf_parse_facts in E1 as (l & A1 & A2 & A3 & A4 & A5 & A6 & A7 & A8 & A9).
        destruct (sf_parse d f1) as [[f2 e2]|w|] eqn:E2; cbn [bind] in E; try discriminate.
        apply sf_parse_facts in E2 as (l2 & B1 & B2 & _). destruct (B2 _ A1) as (-> & ->).
        rewrite A1 in E. cbn [bind] in E. destruct (get_loc_list l) as [[h lst]|w|]; cbn [bind] in E; try discriminate.
        destruct (list_items h lst) as [k|w|]; cbn [bind] in E; try discriminate.
        injection E as <- <- <-. cbn. rewrite app_nil_r, A8, A4. cbn. unfold not_detected at 1. cbn. fold (not_detected f1).
        split; [intros l0 H; destruct (A2 _ H) as (-> & _); congruence|]. sp.
        intros _. rewrite A1. unfold some_zero. destruct (fl_parsed f); lia.
  Qed.

  (** * C27: derived data are stable *)
  Definition session (f : sf) ops f' outs : Prop := run f ops = Ok (f', outs).

  (** Any two answers to the same question agree, whatever is called in between and
      however the disk changes. *)
  Theorem C27_stable f ops f' outs i j di oi ei ai dj oj ej aj : session f ops f' outs ->
    answered ops outs i di oi ei ai -> answered ops outs j dj oj ej aj ->
    (forall x y, ai = AParsed lic x -> aj = AParsed lic y -> x = y) /\
    (forall x y, ai = ALicense lic x -> aj = ALicense lic y -> x = y) /\
    (forall x y, ai = ALoc lic x -> aj = ALoc lic y -> x = y).
  Proof.
    intros E Hi Hj.
    assert (Hgen : forall X (get : sf -> option X) (says : answer -> option X),
      (forall d f o f' e a x, true = true -> step d f o = Ok (f', e, a) -> get f = Some x -> get f' = Some x) ->
      (forall d f o f' e a x, step d f o = Ok (f', e, a) -> says a = Some x -> get f' = Some x) ->
      forall x y, says ai = Some x -> says aj = Some y -> x = y).
    { intros X get says K S x y Hx Hy. destruct (Nat.lt_trichotomy i j) as [H|[H|H]].
      - eapply (sticky get says (fun _ => true)); eauto.
      - subst. destruct Hi, Hj. congruence.
      - symmetry. eapply (sticky get says (fun _ => true)); eauto. }
    split; [|split].
    - intros x y Hx Hy. apply (Hgen _ fl_parsed (fun a => match a with AParsed _ l => Some l | _ => None end)).
      + intros d g o g' e a z _ Es. apply step_facts in Es. apply Es.
      + intros d g o g' e a z Es. apply step_facts in Es as (_ & _ & _ & _ & A & _). destruct a; try discriminate.
        intros [= <-]. auto.
      + rewrite Hx. auto.
      + rewrite Hy. auto.
    - intros x y Hx Hy. apply (Hgen _ fl_license (fun a => match a with ALicense _ l => Some l | _ => None end)).
      + intros d g o g' e a z _ Es. apply step_facts in Es. apply Es.
      + intros d g o g' e a z Es. apply step_facts in Es as (_ & _ & _ & _ & _ & A & _). destruct a; try discriminate.
        intros [= <-]. auto.
      + rewrite Hx. auto.
      + rewrite Hy. auto.
    - intros x y Hx Hy. apply (Hgen _ fl_loc (fun a => match a with ALoc _ l => Some l | _ => None end)).
      + intros d g o g' e a z _ Es. apply step_facts in Es. apply Es.
      + intros d g o g' e a z Es. apply step_facts in Es as (_ & _ & _ & _ & _ & _ & A & _). destruct a; try discriminate.
        intros [= <-]. auto.
      + rewrite Hx. auto.
      + rewrite Hy. auto.
  Qed.

  (** The language is stable as long as no known language is set. *)
  Theorem C27_language_stable f ops f' outs i j di oi ei dj oj ej x y : session f ops f' outs -> (i < j)%nat ->
    answered ops outs i di oi ei (ALanguage lic x) -> answered ops outs j dj oj ej (ALanguage lic y) ->
    (forall k d g, (i < k < j)%nat -> nth_error ops k = Some (d, SetLanguage g) -> language_at g = None) ->
    x = y.
  Proof.
    intros E L Hi Hj Hok.
    eapply (sticky (fun f => if fl_detected f then Some (fl_language f) else None)
                   (fun a => match a with ALanguage _ g => Some g | _ => None end)
                   (fun o => negb (changes_language o))).
    - intros d g o g' e a z Ho Es. apply step_facts in Es as (_ & _ & _ & A & _). destruct (fl_detected g); [|discriminate].
      intros [= <-]. apply negb_true_iff in Ho. destruct (A Ho eq_refl) as [-> ->]. auto.
    - intros d g o g' e a z Es. apply step_facts in Es as (_ & _ & _ & _ & _ & _ & _ & A & _). destruct a; try discriminate.
      intros [= <-]. destruct (A _ eq_refl) as [-> ->]. auto.
    - exact E.
    - exact L.
    - exact Hi.
    - exact Hj.
    - intros k d o Hk Hn. destruct (Nat.eq_dec k j) as [->|Hkj].
      + destruct Hj as [J1 J2]. rewrite J1 in Hn. injection Hn as <- <-.
        destruct (run_at _ _ _ _ j dj oj ej (ALanguage lic y) E) as (f1 & f2 & _ & Sj & _); [split; auto|].
        destruct oj as [p|s| | |g| | | | |]; auto. cbn in Sj. discriminate.
      + destruct o as [p|s| | |g| | | | |]; auto. cbn. rewrite (Hok k d g); auto. lia.
    - auto.
    - auto.
  Qed.

  (** Setting a known language decides all later answers up to the next such call. *)
  Theorem C27_language_set f ops f' outs i j di g n ei ai dj oj ej x : session f ops f' outs -> (i < j)%nat ->
    answered ops outs i di (SetLanguage g) ei ai -> language_at g = Some n ->
    answered ops outs j dj oj ej (ALanguage lic x) ->
    (forall k d h, (i < k < j)%nat -> nth_error ops k = Some (d, SetLanguage h) -> language_at h = None) ->
    x = Some n.
  Proof.
    intros E L Hi Hg Hj Hok.
    destruct (run_at _ _ _ _ _ _ _ _ _ E Hi) as (f1 & f2 & _ & Si & Ri).
    assert (Hj' : answered (skipn (S i) ops) (skipn (S i) outs) (j - S i) dj oj ej (ALanguage lic x)).
    { destruct Hj as [J1 J2]. unfold answered. rewrite !nth_error_skipn.
      replace (S i + (j - S i))%nat with j by lia. auto. }
    destruct (run_at _ _ _ _ _ _ _ _ _ Ri Hj') as (f3 & f4 & R3 & S3 & _).
    assert (G2 : (if fl_detected f2 then Some (fl_language f2) else None) = Some (Some n)).
    { cbn in Si. unfold set_language in Si. rewrite Hg in Si. injection Si as <- <- <-. auto. }
    assert (G3 : (if fl_detected f3 then Some (fl_language f3) else None) = Some (Some n)).
    { eapply (sticky_keeps (fun f => if fl_detected f then Some (fl_language f) else None)
                (fun o => negb (changes_language o))); [|exact R3| |exact G2].
      - intros d h o h' e a z Ho Es. apply step_facts in Es as (_ & _ & _ & A & _). destruct (fl_detected h); [|discriminate].
        intros [= <-]. apply negb_true_iff in Ho. destruct (A Ho eq_refl) as [-> ->]. auto.
      - apply Forall_forall. intros [d o] Hin. apply In_nth_error in Hin as [k Hk].
        assert ((k < j - S i)%nat).
        { assert (k < length (firstn (j - S i) (skipn (S i) ops)))%nat by (apply nth_error_Some; congruence).
          rewrite firstn_length in H. lia. }
        rewrite nth_error_firstn in Hk by auto. rewrite nth_error_skipn in Hk. cbn.
        destruct o as [p|s| | |h| | | | |]; auto. cbn. rewrite (Hok (S i + k)%nat d h); auto. lia. }
    destruct (fl_detected f3) eqn:Ed; [|discriminate]. injection G3 as G3.
    destruct oj; cbn in S3; try discriminate.
    - destruct (get_contents dj f3) as [[? ?] ?]. discriminate.
    - unfold get_contents_size in S3. destruct (fl_size f3 <? 0); [destruct (get_contents dj f3) as [[? ?] ?]|]; discriminate.
    - unfold SourceFileModel.get_language in S3. rewrite Ed in S3. congruence.
    - destruct (get_parsed _ _ _ _ dj f3) as [[[? ?] ?]|?|]; discriminate.
    - destruct (ohcount_parse dj f3) as [[? ?] ?]. discriminate.
    - destruct (get_license _ _ _ _ _ dj f3) as [[[? ?] ?]|?|]; discriminate.
    - destruct (get_loc _ _ _ _ dj f3) as [[[? ?] ?]|?|]; discriminate.
  Qed.

  (** The detector and the licence detector run at most once in a session; a parser
      runs at most once, not counting the calls that ask for a separate parse. *)
  Definition times (P : effect -> bool) (outs : list (list effect * answer)) : nat :=
    count P (flat_map fst outs).

  Lemma times_bound P (b : sf -> nat) (ok : op -> Prop) :
    (forall d f o f' e a, ok o -> step d f o = Ok (f', e, a) -> (count P e + b f' <= b f)%nat) ->
    forall ops f f' outs, session f ops f' outs -> Forall (fun p => ok (snd p)) ops -> (times P outs + b f' <= b f)%nat.
  Proof.
    intros H. unfold session, times. induction ops as [|[d o] ops IH]; intros f f' outs E Hok; cbn [SourceFileModel.run] in E.
    - injection E as <- <-. cbn. lia.
    - inversion Hok; subst. destruct (step d f o) as [[[f1 e] a]|w|] eqn:Es; cbn [bind] in E; try discriminate.
      destruct (run f1 ops) as [[f2 o2]|w|] eqn:Er; cbn [bind] in E; try discriminate. injection E as <- <-.
      cbn [flat_map fst]. rewrite count_app. specialize (IH _ _ _ Er H3). specialize (H d f o f1 e a H2 Es). lia.
  Qed.

  Theorem C27_computed_once f ops f' outs : session f ops f' outs ->
    (times is_detect outs <= 1)%nat /\ (times is_license outs <= 1)%nat /\
    (~ In ParseWithCallback (map snd ops) -> (times is_scan outs <= 1)%nat).
  Proof.
    intros E. split; [|split].
    - assert (times is_detect outs + not_detected f' <= not_detected f)%nat.
      { apply (times_bound is_detect not_detected (fun _ => True)) with (ops := ops); auto.
        - intros d g o g' e a _ Es. apply step_facts in Es. apply Es.
        - apply Forall_forall. auto. }
      unfold not_detected in *. destruct (fl_detected f), (fl_detected f'); lia.
    - assert (times is_license outs + some_zero (fl_license f') <= some_zero (fl_license f))%nat.
      { apply (times_bound is_license (fun f => some_zero (fl_license f)) (fun _ => True)) with (ops := ops); auto.
        - intros d g o g' e a _ Es. apply step_facts in Es. apply Es.
        - apply Forall_forall. auto. }
      destruct (fl_license f), (fl_license f'); cbn in *; lia.
    - intros Hn. assert (times is_scan outs + some_zero (fl_parsed f') <= some_zero (fl_parsed f))%nat.
      { apply (times_bound is_scan (fun f => some_zero (fl_parsed f)) (fun o => o <> ParseWithCallback)) with (ops := ops); auto.
        - intros d g o g' e a Ho Es. apply step_facts in Es. apply Es. auto.
        - apply Forall_forall. intros [d o] Hin Ho. apply Hn. apply in_map_iff. exists (d, o). auto. }
      destruct (fl_parsed f), (fl_parsed f'); cbn in *; lia.
  Qed.

  (** * What the answers are *)
  Definition inv (f : sf) : Prop :=
    (forall c, fl_contents f = Some c -> fl_size f = Z.of_nat (length c)) /\
    (forall k, fl_license f = Some k -> exists l, fl_parsed f = Some l /\ k = licenses_of l) /\
    (forall k, fl_loc f = Some k -> exists l h lst, fl_parsed f = Some l /\ get_loc_list l = Ok (h, lst) /\ list_items h lst = Ok k).

  Lemma get_contents_inv d f f' e c : inv f -> get_contents d f = (f', e, c) -> inv f'.
  Proof.
    intros (I1 & I2 & I3) E. pose proof E as E'. apply get_contents_facts in E as (A1 & A2 & A3 & A4 & A5 & A6 & A7 & A8 & A9 & A10).
    split; [|rewrite A3, A4, A5; auto]. intros x Hx. destruct (fl_contents f) as [y|] eqn:Ey.
    - destruct (A7 _ eq_refl) as (-> & _). apply I1. congruence.
    - apply A10; auto. congruence.
  Qed.

  Lemma get_language_inv d f f' e g : inv f -> get_language d f = (f', e, g) -> inv f'.
  Proof.
    unfold SourceFileModel.get_language. intros I. destruct (fl_detected f); [intros [= <- <- <-]; auto|].
    cbv zeta. destruct (det_reads f).
    - destruct (get_contents d f) as [[f1 e1] c] eqn:E1. apply (get_contents_inv _ _ _ _ _ I) in E1. intros [= <- <- <-]. exact E1.
    - intros [= <- <- <-]. exact I.
  Qed.

  Lemma ohcount_parse_inv d f f' e es : inv f -> ohcount_parse d f = (f', e, es) -> inv f'.
  Proof.
    unfold SourceFileModel.ohcount_parse. intros I. destruct (get_language d f) as [[f1 e1] g] eqn:E1.
    apply (get_language_inv _ _ _ _ _ I) in E1. destruct g as [g|]; [|intros [= <- <- <-]; auto].
    destruct (parser_of g); [|intros [= <- <- <-]; auto].
    destruct (get_contents d f1) as [[f2 e2] c] eqn:E2. apply (get_contents_inv _ _ _ _ _ E1) in E2.
    unfold get_contents_size. destruct (fl_size f2 <? 0).
    - destruct (get_contents d f2) as [[f3 e3] c'] eqn:E3. apply (get_contents_inv _ _ _ _ _ E2) in E3. intros [= <- <- <-]. auto.
    - intros [= <- <- <-]. auto.
  Qed.

  Lemma sf_parse_inv d f f' e : inv f -> sf_parse d f = Ok (f', e) -> inv f'.
  Proof.
    intros I E. unfold SourceFileModel.sf_parse in E. destruct (fl_parsed f) as [l|] eqn:Ep.
    - injection E as <- <-. auto.
    - destruct (ohcount_parse d f) as [[f1 e1] es] eqn:E1. pose proof E1 as E2.
      apply (ohcount_parse_inv _ _ _ _ _ I) in E1 as (I1 & I2 & I3). apply ohcount_parse_facts in E2 as (_ & A & _).
      destruct (run_callbacks _ [] es) as [l|w|]; cbn [bind] in E; try discriminate. injection E as <- <-.
      split; [discriminate|]. cbn. split; intros k Hk.
      + destruct (I2 _ Hk) as (l' & H & _). congruence.
      + destruct (I3 _ Hk) as (l' & h & lst & H & _). congruence.
  Qed.

  Lemma step_inv d f o f' e a : inv f -> step d f o = Ok (f', e, a) -> inv f'.
  Proof.
    intros I E. destruct o as [p|s| | |g| | | | |]; cbn [SourceFileModel.step] in E.
    - injection E as <- <- <-. exact I.
    - injection E as <- <- <-. destruct I as (I1 & I2 & I3). split; [|auto]. cbn. intros c [= <-]. auto.
    - destruct (get_contents d f) as [[f1 e1] c] eqn:E1. injection E as <- <- <-. eapply get_contents_inv; eauto.
    - unfold get_contents_size in E. destruct (fl_size f <? 0).
      + destruct (get_contents d f) as [[f1 e1] c] eqn:E1. injection E as <- <- <-. eapply get_contents_inv; eauto.
      + injection E as <- <- <-. auto.
    - injection E as <- <- <-. unfold set_language. destruct (language_at g); exact I.
    - destruct (get_language d f) as [[f1 e1] g] eqn:E1. injection E as <- <- <-. eapply get_language_inv; eauto.
    - unfold get_parsed in E. destruct (sf_parse d f) as [[f1 e1]|w|] eqn:E1; cbn [bind] in E; try discriminate.
      destruct (fl_parsed f1); cbn [bind] in E; try discriminate. injection E as <- <- <-. eapply sf_parse_inv; eauto.
    - destruct (ohcount_parse d f) as [[f1 e1] es] eqn:E1. injection E as <- <- <-. eapply ohcount_parse_inv; eauto.
    - unfold get_license in E. destruct (fl_license f) as [l0|] eqn:El; [injection E as <- <- <-; auto|].
      unfold get_parsed in E. destruct (sf_parse d f) as [[f1 e1]|w|] eqn:E1; cbn [bind] in E; try discriminate.
      destruct (fl_parsed f1) eqn:Ep; cbn [bind] in E; try discriminate. injection E as <- <- <-.
      apply (sf_parse_inv _ _ _ _ I) in E1 as (I1 & I2 & I3). split; [exact I1|]. cbn. split.
      + intros k [= <-]. eauto.
      + exact I3.
    - unfold get_loc in E. destruct (fl_loc f) as [l0|] eqn:El; [injection E as <- <- <-; auto|].
      unfold get_parsed in E. destruct (sf_parse d f) as [[f1 e1]|w|] eqn:E1; cbn [bind] in E; try discriminate.
      apply (sf_parse_inv _ _ _ _ I) in E1.
      destruct (sf_parse d f1) as [[f2 e2]|w|] eqn:E2; cbn [bind] in E; try discriminate.
      apply (sf_parse_inv _ _ _ _ E1) in E2 as (I1 & I2 & I3).
      destruct (fl_parsed f2) as [l|] eqn:Ep; cbn [bind] in E; try discriminate.
      destruct (get_loc_list l) as [[h lst]|w|] eqn:Eg; cbn [bind] in E; try discriminate.
      destruct (list_items h lst) as [k|w|] eqn:Ek; cbn [bind] in E; try discriminate. injection E as <- <- <-.
      split; [exact I1|]. cbn. rewrite Ep. split; [exact I2|]. intros k' [= <-]. exists l, h, lst. auto.
  Qed.

  Lemma run_inv ops : forall f f' outs, inv f -> session f ops f' outs -> inv f'.
  Proof.
    unfold session. induction ops as [|[d o] ops IH]; intros f f' outs I E; cbn [SourceFileModel.run] in E.
    - injection E as <- <-. auto.
    - destruct (step d f o) as [[[f1 e] a]|w|] eqn:Es; cbn [bind] in E; try discriminate.
      destruct (run f1 ops) as [[f2 o2]|w|] eqn:Er; cbn [bind] in E; try discriminate. injection E as <- <-.
      eapply IH; [|exact Er]. eapply step_inv; eauto.
  Qed.

  Lemma new_inv p : inv (sf_new lic p).
  Proof. repeat split; cbn; discriminate. Qed.

  Lemma run_final f ops f' outs i d o e a : session f ops f' outs -> answered ops outs i d o e a ->
    (forall l, a = AParsed lic l -> fl_parsed f' = Some l) /\
    (forall l, a = ALicense lic l -> fl_license f' = Some l) /\
    (forall l, a = ALoc lic l -> fl_loc f' = Some l).
  Proof.
    intros E H. destruct (run_at _ _ _ _ _ _ _ _ _ E H) as (f1 & f2 & _ & Si & Ri).
    apply step_facts in Si as (_ & _ & _ & _ & A1 & A2 & A3 & _).
    assert (K : forall X (get : sf -> option X), (forall d f o f' e a x, true = true -> step d f o = Ok (f', e, a) -> get f = Some x -> get f' = Some x) ->
       forall x, get f2 = Some x -> get f' = Some x).
    { intros X get Hk x Hx. eapply (sticky_keeps get (fun _ => true)); eauto. apply Forall_forall. auto. }
    split; [|split]; intros l Hl.
    - apply K; auto. intros d0 g o0 g' e0 a0 z _ Es. apply step_facts in Es. apply Es.
    - apply K; auto. intros d0 g o0 g' e0 a0 z _ Es. apply step_facts in Es. apply Es.
    - apply K; auto. intros d0 g o0 g' e0 a0 z _ Es. apply step_facts in Es. apply Es.
  Qed.

  (** Licences and line counts belong to the one parse result of the session. *)
  Theorem C27_consistent p ops f' outs i j di oi ei l dj oj ej a : session (sf_new lic p) ops f' outs ->
    answered ops outs i di oi ei (AParsed lic l) -> answered ops outs j dj oj ej a ->
    (forall k, a = ALicense lic k -> k = licenses_of l) /\
    (forall k, a = ALoc lic k -> ('(h, lst) <- get_loc_list l ;; list_items h lst) = Ok k).
  Proof.
    intros E Hi Hj. pose proof (run_inv _ _ _ _ (new_inv p) E) as (_ & I2 & I3).
    destruct (run_final _ _ _ _ _ _ _ _ _ E Hi) as (A & _). specialize (A _ eq_refl).
    destruct (run_final _ _ _ _ _ _ _ _ _ E Hj) as (_ & B & C). split; intros k Hk.
    - destruct (I2 _ (B _ Hk)) as (l' & H1 & H2). congruence.
    - destruct (I3 _ (C _ Hk)) as (l' & h & lst & H1 & H2 & H3). assert (l' = l) as -> by congruence.
      rewrite H2. cbn [bind]. exact H3.
  Qed.

  (** The parse result is what the parser of the file's language reports on the text:
      the call that runs the parser for the object answers every later question. *)
  Lemma ohcount_parse_scan d f f' e es g t : inv f -> ohcount_parse d f = (f', e, es) -> In (Scan g t) e ->
    fl_contents f' = (match t with [] => fl_contents f' | _ => Some t end) /\
    match fl_contents f' with Some c => c = t | None => t = [] end /\
    exists parser, parser_of g = Some parser /\ es = parser t /\ fl_language f' = Some g.
  Proof.
    intros I E. unfold SourceFileModel.ohcount_parse in E. destruct (get_language d f) as [[f1 e1] g0] eqn:E1.
    pose proof (get_language_inv _ _ _ _ _ I E1) as I1.
    pose proof (get_language_count _ _ _ _ _ E1) as (_ & _ & C1).
    assert (N1 : forall e, count is_scan e = 0%nat -> ~ In (Scan g t) e).
    { intros e0 He Hin. unfold count in He. apply length_zero_iff_nil in He.
      assert (In (Scan g t) (filter is_scan e0)) by (apply filter_In; auto). rewrite He in H. destruct H. }
    apply get_language_facts in E1 as (L1 & L2 & _).
    destruct g0 as [g0|]; [|injection E as <- <- <-; intros Hin; destruct (N1 _ C1 Hin)].
    destruct (parser_of g0) as [parser|] eqn:Ep; [|injection E as <- <- <-; intros Hin; destruct (N1 _ C1 Hin)].
    destruct (get_contents d f1) as [[f2 e2] c] eqn:E2. pose proof (get_contents_inv _ _ _ _ _ I1 E2) as I2.
    apply get_contents_facts in E2 as (A1 & A2 & A3 & A4 & A5 & A6 & A7 & A8 & A9 & A10).
    unfold get_contents_size in E.
    assert (0 <= fl_size f2).
    { destruct c as [c|]; [|rewrite A9; auto; lia]. destruct I2 as (I2 & _). rewrite (I2 _ A6). lia. }
    destruct (Z.ltb_spec (fl_size f2) 0); [lia|]. injection E as <- <- <-.
    intros Hin. cbn [app] in Hin. rewrite !in_app_iff in Hin. destruct Hin as [Hin|[Hin|[Hin|[]]]].
    - destruct (N1 _ C1 Hin).
    - rewrite Forall_forall in A8. destruct (A8 _ Hin).
    - injection Hin as <- Ht. rewrite A6. destruct c as [c|].
      + destruct I2 as (I2 & _). rewrite (I2 _ A6), Nat2Z.id, firstn_all in Ht. subst c.
        split; [destruct t; auto|]. split; auto. exists parser. split; auto. split; [|congruence].
        rewrite (I2 _ A6), Nat2Z.id, firstn_all. auto.
      + subst t. split; auto. split; auto. exists parser. split; auto. split; auto. congruence.
  Qed.

  Theorem C27_parse_result p ops f' outs i j di oi ei ai dj oj ej g t l : session (sf_new lic p) ops f' outs ->
    answered ops outs i di oi ei ai -> oi <> ParseWithCallback -> In (Scan g t) ei ->
    answered ops outs j dj oj ej (AParsed lic l) ->
    exists parser, parser_of g = Some parser /\ run_callbacks t [] (parser t) = Ok l.
  Proof.
    intros E Hi Ho Hin Hj.
    destruct (run_final _ _ _ _ _ _ _ _ _ E Hj) as (A & _). specialize (A _ eq_refl).
    destruct (run_at _ _ _ _ _ _ _ _ _ E Hi) as (f1 & f2 & R1 & Si & Ri).
    pose proof (run_inv _ _ _ _ (new_inv p) R1) as I.
    assert (Hs : forall f3 e3, sf_parse di f1 = Ok (f3, e3) -> In (Scan g t) e3 -> exists l0 parser, fl_parsed f3 = Some l0 /\
      parser_of g = Some parser /\ run_callbacks t [] (parser t) = Ok l0).
    { intros f3 e3 Es Hs. unfold SourceFileModel.sf_parse in Es. destruct (fl_parsed f1) eqn:Ep; [injection Es as <- <-; destruct Hs|].
      destruct (ohcount_parse di f1) as [[f4 e4] es] eqn:E4.
      destruct (run_callbacks _ [] es) as [l0|w|] eqn:Er; cbn [bind] in Es; try discriminate. injection Es as <- <-.
      destruct (ohcount_parse_scan _ _ _ _ _ _ _ I E4 Hs) as (_ & B & parser & P1 & P2 & _).
      exists l0, parser. split; auto. split; auto. subst es. destruct (fl_contents f4); subst; auto. }
    assert (K : forall l0, fl_parsed f2 = Some l0 -> l0 = l).
    { intros l0 H0. enough (fl_parsed f' = Some l0) by congruence.
      eapply (sticky_keeps fl_parsed (fun _ => true)); eauto.
      - intros d0 h o0 h' e0 a0 z _ Es. apply step_facts in Es. apply Es.
      - apply Forall_forall. auto. }
    destruct oi as [q|s| | |g0| | | | |]; cbn [SourceFileModel.step] in Si; try congruence.
    - injection Si as <- <- <-. destruct Hin.
    - injection Si as <- <- <-. destruct Hin.
    - destruct (get_contents di f1) as [[f3 e3] c] eqn:E1. injection Si as <- <- <-.
      apply get_contents_facts in E1 as (_ & _ & _ & _ & _ & _ & _ & A8 & _).
      rewrite Forall_forall in A8. destruct (A8 _ Hin).
    - unfold get_contents_size in Si. destruct (fl_size f1 <? 0).
      + destruct (get_contents di f1) as [[f3 e3] c] eqn:E1. injection Si as <- <- <-.
        apply get_contents_facts in E1 as (_ & _ & _ & _ & _ & _ & _ & A8 & _).
        rewrite Forall_forall in A8. destruct (A8 _ Hin).
      + injection Si as <- <- <-. destruct Hin.
    - injection Si as <- <- <-. destruct Hin.
    - destruct (get_language di f1) as [[f3 e3] g0] eqn:E1. injection Si as <- <- <-.
      apply get_language_count in E1 as (_ & _ & C1). unfold count in C1. apply length_zero_iff_nil in C1.
      assert (In (Scan g t) (filter is_scan e3)) by (apply filter_In; auto). rewrite C1 in H. destruct H.
    - unfold get_parsed in Si. destruct (sf_parse di f1) as [[f3 e3]|w|] eqn:E1; cbn [bind] in Si; try discriminate.
      destruct (fl_parsed f3) eqn:Ep; cbn [bind] in Si; try discriminate. injection Si as <- <- <-.
      destruct (Hs _ _ eq_refl Hin) as (l1 & parser & B1 & B2 & B3). exists parser. rewrite <- (K l1); auto.
    - unfold get_license in Si. destruct (fl_license f1) as [l0|] eqn:El; [injection Si as <- <- <-; destruct Hin|].
      unfold get_parsed in Si. destruct (sf_parse di f1) as [[f3 e3]|w|] eqn:E1; cbn [bind] in Si; try discriminate.
      destruct (fl_parsed f3) as [l2|] eqn:Ep; cbn [bind] in Si; try discriminate. injection Si as <- <- <-.
      apply in_app_iff in Hin as [Hin|[Hin|[]]]; [|discriminate].
      destruct (Hs _ _ eq_refl Hin) as (l1 & parser & B1 & B2 & B3). exists parser. rewrite <- (K l1); auto.
    - unfold get_loc in Si. destruct (fl_loc f1) as [l0|] eqn:El; [injection Si as <- <- <-; destruct Hin|].
      unfold get_parsed in Si. destruct (sf_parse di f1) as [[f3 e3]|w|] eqn:E1; cbn [bind] in Si; try discriminate.
      destruct (sf_parse di f3) as [[f4 e4]|w|] eqn:E2; cbn [bind] in Si; try discriminate.
      apply sf_parse_facts in E1 as (l3 & A1 & _). apply sf_parse_facts in E2 as (l4 & _ & B & _). destruct (B _ A1) as (-> & ->).
      destruct (fl_parsed f3) as [l2|] eqn:Ep; cbn [bind] in Si; try discriminate.
      destruct (get_loc_list l2) as [[h lst]|w|] eqn:Eg; cbn [bind] in Si; try discriminate.
      destruct (list_items h lst) as [k|w|] eqn:Ek; cbn [bind] in Si; try discriminate. injection Si as <- <- <-.
      rewrite app_nil_r in Hin.
      destruct (Hs _ _ eq_refl Hin) as (l1 & parser & B1 & B2 & B3). exists parser. rewrite <- (K l1); auto.
  Qed.

  (** * C28: contents set by the caller *)

  (** Until a call that parses or sets contents again, the set contents are returned,
      with their length, and no file is read. *)
  Theorem C28_set_contents p ops f' outs i j di s ei ai dj oj ej aj : session (sf_new lic p) ops f' outs -> (i < j)%nat ->
    answered ops outs i di (SetContents s) ei ai -> answered ops outs j dj oj ej aj ->
    (forall k d o, (i < k < j)%nat -> nth_error ops k = Some (d, o) -> parses o = false /\ forall s', o <> SetContents s') ->
    (forall c, aj = AContents lic c -> c = Some s) /\ (forall n, aj = ASize lic n -> n = Z.of_nat (length s)) /\
    (parses oj = false -> forall q, ~ In (Read q) ej).
  Proof.
    intros E L Hi Hj Hok.
    destruct (run_at _ _ _ _ _ _ _ _ _ E Hi) as (f1 & f2 & _ & Si & Ri).
    assert (Hj' : answered (skipn (S i) ops) (skipn (S i) outs) (j - S i) dj oj ej aj).
    { destruct Hj as [J1 J2]. unfold answered. rewrite !nth_error_skipn.
      replace (S i + (j - S i))%nat with j by lia. auto. }
    destruct (run_at _ _ _ _ _ _ _ _ _ Ri Hj') as (f3 & f4 & R3 & S3 & _).
    set (quiet := fun o => negb (parses o) && match o with SetContents _ => false | _ => true end).
    assert (Hstep : forall d f o f' e a, quiet o = true -> fl_contents f = Some s -> fl_size f = Z.of_nat (length s) ->
      step d f o = Ok (f', e, a) -> fl_contents f' = Some s /\ fl_size f' = Z.of_nat (length s) /\
      (forall c, a = AContents lic c -> c = Some s) /\ (forall n, a = ASize lic n -> n = Z.of_nat (length s)) /\
      (forall q, ~ In (Read q) e)).
    { clear. intros d f o f' e a Hq Hc Hs Es. destruct o as [q|s'| | |g0| | | | |]; try discriminate; cbn [SourceFileModel.step] in Es.
      - injection Es as <- <- <-. cbn. sp. auto.
      - unfold SourceFileModel.get_contents in Es. rewrite Hc in Es. injection Es as <- <- <-. cbn. sp. auto.
      - unfold get_contents_size in Es. destruct (Z.ltb_spec (fl_size f) 0); [lia|]. injection Es as <- <- <-. cbn. sp. auto.
      - injection Es as <- <- <-. unfold set_language. destruct (language_at g0); cbn; sp; auto.
      - destruct (get_language d f) as [[f1 e1] g] eqn:E1. injection Es as <- <- <-.
        apply get_language_facts in E1 as (_ & _ & _ & _ & _ & _ & _ & A). destruct (A _ Hc) as (B1 & B2 & B3).
        rewrite B2. sp. auto.
      - destruct (ohcount_parse d f) as [[f1 e1] es] eqn:E1. injection Es as <- <- <-.
        apply ohcount_parse_facts in E1 as (_ & _ & _ & _ & _ & _ & _ & _ & A). destruct (A _ Hc Hs) as (B1 & B2 & B3).
        rewrite B2. sp. auto. }
    assert (G3 : fl_contents f3 = Some s /\ fl_size f3 = Z.of_nat (length s)).
    { cbn in Si. injection Si as <- <- <-.
      assert (Hquiet : Forall (fun p => quiet (snd p) = true) (firstn (j - S i) (skipn (S i) ops))).
      { apply Forall_forall. intros [d o] Hin. apply In_nth_error in Hin as [k Hk].
        assert ((k < j - S i)%nat).
        { assert (k < length (firstn (j - S i) (skipn (S i) ops)))%nat by (apply nth_error_Some; congruence).
          rewrite firstn_length in H. lia. }
        rewrite nth_error_firstn in Hk by auto. rewrite nth_error_skipn in Hk. cbn.
        destruct (Hok (S i + k)%nat d o) as [H1 H2]; auto; [lia|]. unfold quiet. rewrite H1. cbn.
        destruct o; auto. destruct (H2 _ eq_refl). }
      revert R3 Hquiet. generalize (set_contents lic f1 s) (eq_refl : fl_contents (set_contents lic f1 s) = Some s)
        (eq_refl : fl_size (set_contents lic f1 s) = Z.of_nat (length s)).
      generalize (firstn (j - S i) (skipn (S i) ops)) (firstn (j - S i) (skipn (S i) outs)). clear - Hstep.
      intros ops. induction ops as [|[d o] ops IH]; intros outs f Hc Hs E Hq; cbn [SourceFileModel.run] in E.
      - injection E as <- <-. auto.
      - inversion Hq; subst. destruct (step d f o) as [[[f1 e] a]|w|] eqn:Es; cbn [bind] in E; try discriminate.
        destruct (run f1 ops) as [[f2 o2]|w|] eqn:Er; cbn [bind] in E; try discriminate. injection E as <- <-.
        destruct (Hstep _ _ _ _ _ _ H1 Hc Hs Es) as (B1 & B2 & _). eapply IH; eauto. }
    destruct G3 as [G3 G4]. destruct (quiet oj) eqn:Hq.
    - destruct (Hstep _ _ _ _ _ _ Hq G3 G4 S3) as (_ & _ & B1 & B2 & B3). auto.
    - destruct oj as [q|s'| | |g0| | | | |]; try discriminate; cbn [SourceFileModel.step] in S3.
      + injection S3 as <- <- <-. sp. auto.
      + destruct (get_parsed _ _ _ _ dj f3) as [[[? ?] ?]|?|]; try discriminate. injection S3 as <- <- <-. sp. discriminate.
      + destruct (get_license _ _ _ _ _ dj f3) as [[[? ?] ?]|?|]; try discriminate. injection S3 as <- <- <-. sp. discriminate.
      + destruct (get_loc _ _ _ _ dj f3) as [[[? ?] ?]|?|]; try discriminate. injection S3 as <- <- <-. sp. discriminate.
  Qed.

  (** The size reported right after the contents is their length (0 if there are none). *)
  Theorem C28_size p ops f' outs i d d' o e e' c a : session (sf_new lic p) ops f' outs ->
    answered ops outs i d o e (AContents lic c) -> answered ops outs (S i) d' GetSize e' a ->
    e' = [] /\ a = ASize lic (match c with Some c => Z.of_nat (length c) | None => 0 end).
  Proof.
    intros E Hi Hj.
    destruct (run_at _ _ _ _ _ _ _ _ _ E Hi) as (f1 & f2 & R1 & Si & Ri).
    assert (Hj' : answered (skipn (S i) ops) (skipn (S i) outs) 0 d' GetSize e' a).
    { destruct Hj as [J1 J2]. unfold answered. rewrite !nth_error_skipn. rewrite Nat.add_0_r. auto. }
    destruct (run_at _ _ _ _ _ _ _ _ _ Ri Hj') as (f3 & f4 & R3 & S3 & _). cbn in R3. injection R3 as <-.
    pose proof (step_inv _ _ _ _ _ _ (run_inv _ _ _ _ (new_inv p) R1) Si) as (I & _).
    assert (fl_size f2 = match c with Some c => Z.of_nat (length c) | None => 0 end) as Hs.
    { destruct o as [q|s'| | |g0| | | | |]; cbn [SourceFileModel.step] in Si; try discriminate.
      - destruct (get_contents d f1) as [[f3 e3] c'] eqn:E1. injection Si as <- <- <-.
        apply get_contents_facts in E1 as (_ & _ & _ & _ & _ & A1 & _ & _ & A2 & _). destruct c'; auto.
      - unfold get_contents_size in Si. destruct (fl_size f1 <? 0); [destruct (get_contents d f1) as [[? ?] ?]|]; discriminate.
      - destruct (get_language d f1) as [[? ?] ?]. discriminate.
      - destruct (get_parsed _ _ _ _ d f1) as [[[? ?] ?]|?|]; discriminate.
      - destruct (ohcount_parse d f1) as [[? ?] ?]. discriminate.
      - destruct (get_license _ _ _ _ _ d f1) as [[[? ?] ?]|?|]; discriminate.
      - destruct (get_loc _ _ _ _ d f1) as [[[? ?] ?]|?|]; discriminate. }
    cbn in S3. unfold get_contents_size in S3. rewrite Hs in S3.
    destruct (Z.ltb_spec (match c with Some c => Z.of_nat (length c) | None => 0 end) 0).
    - destruct c; lia.
    - injection S3 as <- <- <-. auto.
  Qed.

  Notation paths f := (f_path lic f, f_diskpath lic f).
  Lemma get_contents_paths d f f' e c : get_contents d f = (f', e, c) -> paths f' = paths f.
  Proof.
    unfold SourceFileModel.get_contents. destruct (fl_contents f); [intros [= <- <- <-]; auto|].
    cbv zeta. destruct (d _) as [x|]; [destruct (_ =? 0)|]; intros [= <- <- <-]; auto.
  Qed.
  Lemma ohcount_parse_paths d f f' e es : ohcount_parse d f = (f', e, es) -> paths f' = paths f.
  Proof.
    unfold SourceFileModel.ohcount_parse. destruct (get_language d f) as [[f1 e1] g] eqn:E1.
    assert (H1 : paths f1 = paths f).
    { unfold SourceFileModel.get_language in E1. destruct (fl_detected f); [injection E1 as <- <- <-; auto|].
      cbv zeta in E1. destruct (det_reads f).
      - destruct (get_contents d f) as [[f2 e2] c] eqn:E2. apply get_contents_paths in E2. injection E1 as <- <- <-. auto.
      - injection E1 as <- <- <-. auto. }
    destruct g as [g|]; [|intros [= <- <- <-]; auto]. destruct (parser_of g); [|intros [= <- <- <-]; auto].
    destruct (get_contents d f1) as [[f2 e2] c] eqn:E2. apply get_contents_paths in E2. unfold get_contents_size.
    destruct (fl_size f2 <? 0).
    - destruct (get_contents d f2) as [[f3 e3] c'] eqn:E3. apply get_contents_paths in E3. intros [= <- <- <-]. congruence.
    - intros [= <- <- <-]. congruence.
  Qed.
  Lemma sf_parse_paths d f f' e : sf_parse d f = Ok (f', e) -> f_path lic f' = f_path lic f /\ f_diskpath lic f' = f_diskpath lic f.
  Proof.
    unfold SourceFileModel.sf_parse. destruct (fl_parsed f); [intros [= <- <-]; auto|].
    destruct (ohcount_parse d f) as [[f1 e1] es] eqn:E1. apply ohcount_parse_paths in E1. injection E1 as P1 P2.
    destruct (run_callbacks _ [] es); cbn [bind]; try discriminate. intros [= <- <-]. auto.
  Qed.

  (** After a parse the set contents are gone: the next question goes to the disk. *)
  Theorem C28_lost_after_parse p d1 d2 d3 s f' outs :
    session (sf_new lic p) [(d1, SetContents s); (d2, GetParsed); (d3, GetContents)] f' outs ->
    nth_error outs 2 = Some ([Read p], AContents lic (match d3 p with Some (x :: c) => Some (x :: c) | _ => None end)).
  Proof.
    unfold session. cbn [SourceFileModel.run]. cbn [SourceFileModel.step]. cbn [bind].
    unfold get_parsed. destruct (sf_parse d2 (set_contents lic (sf_new lic p) s)) as [[f1 e1]|w|] eqn:E1; cbn [bind]; try discriminate.
    assert (f_path lic f1 = p /\ f_diskpath lic f1 = None) as [P1 P2].
    { destruct (sf_parse_paths _ _ _ _ E1) as [-> ->]. auto. }
    apply sf_parse_facts in E1 as (l & A1 & A2 & A3 & _). rewrite A1. cbn [bind].
    assert (fl_contents f1 = None) as Hc by (apply A3; auto).
    unfold SourceFileModel.get_contents. rewrite Hc, P1, P2.
    destruct (d3 p) as [[|x c]|]; cbn; intros [= <- <-]; auto.
  Qed.
End Properties.

Print Assumptions C27_stable.
Print Assumptions C27_language_stable.
Print Assumptions C27_language_set.
Print Assumptions C27_computed_once.
Print Assumptions C27_consistent.
Print Assumptions C27_parse_result.
Print Assumptions C28_set_contents.
Print Assumptions C28_size.
Print Assumptions C28_lost_after_parse.

(** * A concrete session *)
(** One language with a parser that reports the whole text as one line of code; the
    licence detector counts the languages. *)
Definition toy_run :=
  run nat (fun _ => true) (fun _ c => match c with Some _ => Some "c" | None => None end)
      (fun g => if (g =? "c")%string || (g =? "ruby")%string then Some g else if (g =? "bash")%string then Some "shell" else None)
      (fun g => if (g =? "c")%string then Some (fun t => [mkEvent "c" "lcode" 0 (Z.of_nat (length t))]) else None)
      (fun l => length l).
Definition disk_a : disk := fun _ => Some [97; 10].
Definition disk_b : disk := fun _ => Some [98; 98; 10].

Definition ops_a : list (disk * op) :=
  [(disk_a, GetLanguage); (disk_a, GetParsed); (disk_b, SetContents [99; 10]); (disk_b, GetParsed);
   (disk_b, GetLoc); (disk_b, GetLicense); (disk_b, SetLanguage "perl"); (disk_b, GetLanguage);
   (disk_b, SetLanguage "bash"); (disk_b, GetLanguage); (disk_b, GetLoc); (disk_b, GetContents); (disk_b, GetSize)].

(** The answers with the stored text instead of the buffers. *)
Inductive shown :=
| Plain (a : answer nat)
| Parsed (l : list (string * res (list Z))).
Definition show (a : answer nat) : shown :=
  match a with
  | AParsed _ l => Parsed (map (fun pl => (p_name pl, area_string (p_code pl))) l)
  | a => Plain a
  end.
Definition answers (ops : list (disk * op)) : res (list (list effect * shown)) :=
  '(_, outs) <- toy_run (sf_new nat [47; 97]) ops ;; Ok (map (fun p => (fst p, show (snd p))) outs).

(** Known and unknown languages set, contents replaced and the disk changed in between. *)
Example C27_case : answers ops_a =
  Ok [([Read [47; 97]; Detect], Plain (ALanguage nat (Some "c")));
      ([Scan "c" [97; 10]], Parsed [("c", Ok [97; 10])]);
      ([], Plain (ANone nat));
      ([], Parsed [("c", Ok [97; 10])]);
      ([], Plain (ALoc nat [mkLoc "c" 1 0 0 1]));
      ([License], Plain (ALicense nat 1%nat));
      ([], Plain (ANone nat)); ([], Plain (ALanguage nat (Some "c"))); ([], Plain (ANone nat));
      ([], Plain (ALanguage nat (Some "shell")));
      ([], Plain (ALoc nat [mkLoc "c" 1 0 0 1]));
      ([], Plain (AContents nat (Some [99; 10]))); ([], Plain (ASize nat 2))].
Proof. vm_compute. reflexivity. Qed.

(** The contents set by the caller are returned until the parse, which loses them:
    afterwards the disk is read. *)
Example C28_case :
  answers [(disk_a, SetContents [99; 10; 99]); (disk_a, SetDiskpath [47; 98]); (disk_a, GetLanguage);
           (disk_a, ParseWithCallback); (disk_a, GetContents); (disk_b, GetSize); (disk_a, GetParsed);
           (disk_b, GetContents); (disk_b, GetSize)] =
  Ok [([], Plain (ANone nat)); ([], Plain (ANone nat)); ([Detect], Plain (ALanguage nat (Some "c")));
      ([Scan "c" [99; 10; 99]], Plain (AEvents nat [mkEvent "c" "lcode" 0 3]));
      ([], Plain (AContents nat (Some [99; 10; 99]))); ([], Plain (ASize nat 3));
      ([Scan "c" [99; 10; 99]], Parsed [("c", Ok [99; 10; 99])]);
      ([Read [47; 98]], Plain (AContents nat (Some [98; 98; 10]))); ([], Plain (ASize nat 3))].
Proof. vm_compute. reflexivity. Qed.

(** The size is not the length of the contents of the next answer: after a parse the
    size is kept but the contents are read again. *)
Theorem C28_size_before_contents_refuted : exists ops n c,
  answers ops = Ok [([Read [47; 97]; Detect; Scan "c" [97; 10]], Parsed [("c", Ok [97; 10])]);
                    ([], Plain (ASize nat n)); ([Read [47; 97]], Plain (AContents nat (Some c)))] /\
  n <> Z.of_nat (length c).
Proof.
  exists [(disk_a, GetParsed); (disk_b, GetSize); (disk_b, GetContents)], 2, [98; 98; 10].
  split; [vm_compute; reflexivity|discriminate].
Qed.
Print Assumptions C28_size_before_contents_refuted.

(** An empty file has no contents (NULL), so every question reads the disk again and
    a file filled later changes the answer. *)
Theorem C28_empty_file_refuted : exists d1 d2,
  answers [(d1, GetContents); (d2, GetContents)] =
  Ok [([Read [47; 97]], Plain (AContents nat None)); ([Read [47; 97]], Plain (AContents nat (Some [98; 98; 10])))] /\
  d1 [47; 97] = Some [].
Proof. exists (fun _ => Some []), disk_b. split; vm_compute; reflexivity. Qed.
Print Assumptions C28_empty_file_refuted.
