(** Comments and strings at the start of a file; files that are accepted. *)
From Coq Require Import ZArith String List Bool Lia.
From Verif Require Import Base ParsedModel RagelSyntax RagelBuild RagelRun ParserTable.
From Verif Require Import LineSpec LexSpec LexCheck LexFacts LexBytes LexLines.
Import ListNotations.
Open Scope string_scope.
Open Scope Z_scope.
Open Scope list_scope.

(** ** Statements *)

(** Nothing of the language starts with the byte. *)
Definition with_byte (c : Z) (p : list (list Z)) : bool := match p with s :: _ => among c s | [] => true end.
Definition calm (x : lexis) (c : Z) : bool :=
  negb (existsb (with_byte c) (x_never x ++ x_head x)) && negb (existsb (fun w => with_byte c (fst (fst w))) (x_words x))
  && negb (existsb (fun g => with_byte c (g_open g ++ g_ahead g)) (x_regions x)).

(** No text has both patterns. *)
Definition clash (p q : list (list Z)) : bool := existsb (fun ab => apart (fst ab) (snd ab)) (combine p q).

(** The [j]-th comment or string of the language is not hidden by another; it may start
    a line. *)
Definition leads (x : lexis) (j : nat) (g : region) : bool :=
  forallb (fun p => clash p (g_open g)) (x_never x ++ x_head x) && forallb (fun w => clash (fst (fst w)) (g_open g)) (x_words x)
  && forallb (fun h => clash (g_open h) (g_open g)) (firstn j (x_regions x))
  && suits (fresh true) g.

(** In [body], before [rest], nothing closes the comment or string, no other starts in
    it and no backslash escapes. *)
Fixpoint clean (g : region) (body rest : list Z) : bool :=
  match body with
  | [] => true
  | b :: r =>
    let s := body ++ rest in
    negb (existsb (fun p => has p s) (g_close g)) && negb (existsb (fun p => has p s) (g_never g))
    && negb (g_nest g && has (g_open g) s)
    && (negb (b =? 92)
        || (negb (g_esc g) && (match g_escnl g with None => true | _ => false end || Nat.eqb (line_end (r ++ rest)) 0)))
    && clean g r rest
  end.

(** Comments over several lines. *)
Definition block_comment (g : region) : bool :=
  match g with
  | mkRegion _ _ close Comment Comment Comment Inner _ false None _ false _ =>
    forallb no_ws close && forallb (fun p => Nat.ltb 0 (length p)) close
  | _ => false
  end.
(** Comments up to the end of the line. *)
Definition line_comment (g : region) : bool :=
  match g with mkRegion _ _ [] Comment Comment _ Cut [] _ _ false false _ => true | _ => false end.
(** Strings. *)
Definition string_literal (g : region) : bool :=
  match g with mkRegion _ _ close Code Code _ (Inner | Deny) _ _ _ _ _ _ => true | _ => false end.

(** Comments and strings that need not be closed on the same line, or exclude something. *)
Definition loose (g : region) : bool :=
  negb (g_must g)
  && match g_nl g with Cut => g_esc g || match g_never g with [] => false | _ => true end | _ => true end.
Definition simple (x : lexis) : bool :=
  forallb (fun g => g_must g || loose g || (match g_never g with [] => true | _ => false end && negb (g_esc g))) (x_regions x).
(** No other comments and strings, nothing excluded. *)
Fixpoint fits (x : lexis) (s : list Z) : bool :=
  match s with
  | [] => true
  | c :: r =>
    negb (c =? 11) && negb (existsb (fun p => has p s) (x_never x ++ x_head x))
    && forallb (fun g => negb (loose g && has (g_open g ++ g_ahead g) s)) (x_regions x)
    && fits x r
  end.

(** ** Names and offsets *)
Lemma account_rename vs x lang f : forall w L p h s,
  account f x (value vs lang) w L p h s = option_map (map (rename vs)) (account f x lang w L p h s).
Proof.
  induction f as [|f IH]; intros w L p h s; [reflexivity|]. cbn [account].
  destruct s as [|c s].
  - destruct w as [|[? ? ? ? ? ? [] ? ? ? ? ? ?] ?]; try reflexivity; destruct (kind_now h); reflexivity.
  - destruct (piece_of x w h (c :: s)) as [[n k w'|n k i w']|]; auto. rewrite IH.
    destruct (account f x lang _ _ _ _ _); reflexivity.
Qed.

Lemma account_shift d x lang f : forall w L p h s,
  account f x lang w (L + d) (p + d) h s = option_map (map (shift d)) (account f x lang w L p h s).
Proof.
  induction f as [|f IH]; intros w L p h s; [reflexivity|]. cbn [account].
  destruct s as [|c s].
  - destruct w as [|[? ? ? ? ? ? [] ? ? ? ? ? ?] ?]; try reflexivity; destruct (kind_now h); reflexivity.
  - destruct (piece_of x w h (c :: s)) as [[n k w'|n k i w']|]; auto.
    + rewrite <- IH. f_equal; lia.
    + replace (p + d + Z.of_nat n) with (p + Z.of_nat n + d) by lia. rewrite IH.
      destruct (account f x lang _ _ _ _ _); [|reflexivity]. cbn [option_map map]. unfold shift at 2. cbn [e_lang e_entity e_start e_end].
      do 3 f_equal. destruct (kind_now _); auto. destruct i; auto.
Qed.

Section Heads.
  Variable x : lexis.
  Variable lang : string.

  Lemma Acc_b w L p h s l n k w' : piece_of x w h s = Some (Bytes n k w') ->
    Acc x lang w' L (p + Z.of_nat n) (mark k (starts n s) h) (skipn n s) l -> Acc x lang w L p h s l.
  Proof.
    intros Hp (f & H). exists (S f). cbn [account]. destruct s as [|c s]; [destruct w; discriminate|]. rewrite Hp. exact H.
  Qed.
  Lemma Acc_e w L p h s l n k i w' : piece_of x w h s = Some (Ends n k i w') ->
    Acc x lang w' (p + Z.of_nat n) (p + Z.of_nat n) (fresh (starts n s)) (skipn n s) l ->
    Acc x lang w L p h s
      (mkEvent lang (kind_name (kind_now (mark k false h)))
         (match kind_now (mark k false h) with Blank => if i then L else p | _ => L end) (p + Z.of_nat n) :: l).
  Proof.
    intros Hp (f & H). exists (S f). cbn [account]. destruct s as [|c s]; [destruct w; discriminate|]. rewrite Hp, H. reflexivity.
  Qed.

  (** ** Outside *)
  Lemma with_byte_has c p s : with_byte c p = false -> has p (c :: s) = false.
  Proof. destruct p as [|u p]; cbn; [discriminate|]. intros ->. reflexivity. Qed.

  Lemma existsb_none {A} (f g : A -> bool) l : existsb f l = false -> (forall a, f a = false -> g a = false) -> existsb g l = false.
  Proof.
    induction l as [|a l IH]; cbn; auto. intros H Hf. apply orb_false_iff in H as [H1 H2]. rewrite (Hf _ H1). auto.
  Qed.
  Lemma find_none_of {A} (g : A -> bool) l : existsb g l = false -> find g l = None.
  Proof. induction l as [|a l IH]; cbn; auto. intros H. apply orb_false_iff in H as [-> H2]. auto. Qed.

  Lemma barred_none h (f : list (list Z) -> bool) : existsb f (x_never x ++ x_head x) = false -> existsb f (barred x h) = false.
  Proof.
    unfold barred. rewrite !existsb_app. intros H. apply orb_false_iff in H as [-> H].
    destruct (n_start h); [exact H|reflexivity].
  Qed.

  Lemma calm_outside h c r : calm x c = true -> outside x h (c :: r) =
    match line_end (c :: r) with
    | S e => Some (Ends (S e) Blank false Out)
    | O => if c =? 11 then None else Some (Bytes 1 (if blank_byte c || (c =? 13) then Blank else Code) Out)
    end.
  Proof.
    intros H. unfold calm in H. dand. unfold outside.
    repeat match goal with H : negb _ = true |- _ => apply negb_true_iff in H end.
    rewrite (existsb_none (with_byte c) (fun p => has p (c :: r)) (barred x h)) by (auto using with_byte_has, barred_none).
    rewrite (find_none_of _ (x_words x)) by
      (eapply existsb_none; [eassumption|]; cbn; intros; apply with_byte_has; auto).
    rewrite (find_none_of _ (x_regions x)); [reflexivity|].
    eapply existsb_none; [eassumption|]. cbn. intros g Hg. unfold opens. rewrite with_byte_has; auto. apply andb_false_r.
  Qed.

  Lemma blanks_ok ws : calm x 9 = true -> calm x 32 = true -> forallb blank_byte ws = true ->
    forall s L p m1 m2 l, (forall st, Acc x lang Out L (p + zlen ws) (mkNow m1 m2 st) s l) ->
    forall st, Acc x lang Out L p (mkNow m1 m2 st) (ws ++ s) l.
  Proof.
    intros H9 H32. induction ws as [|c ws IH]; intros Hw s L p m1 m2 l H st.
    - specialize (H st). cbn in H. rewrite Z.add_0_r in H. exact H.
    - cbn in Hw. apply andb_prop in Hw as [Hc Hw]. cbn [app].
      assert (Hb : c = 9 \/ c = 32) by (unfold blank_byte in Hc; destruct (Z.eqb_spec c 9), (Z.eqb_spec c 32); auto; discriminate).
      eapply (Acc_b Out L p _ _ _ 1 Blank Out).
      + cbn [piece_of]. destruct Hb as [-> | ->]; rewrite calm_outside; auto.
      + cbn [skipn]. cbn [mark n_code n_comment]. apply IH; auto. replace (p + Z.of_nat 1 + zlen ws) with (p + zlen (c :: ws)) by (cbn [length]; lia). exact H.
  Qed.

  Lemma newline_ok : calm x 10 = true -> forall s L p h l,
    Acc x lang Out (p + 1) (p + 1) (fresh true) s l ->
    Acc x lang Out L p h (10 :: s)
      (mkEvent lang (kind_name (kind_now h)) (match kind_now h with Blank => p | _ => L end) (p + 1) :: l).
  Proof.
    intros Hc s L p h l H. apply (Acc_e Out L p h (10 :: s) l 1 Blank false Out); [|exact H].
    cbn [piece_of]. rewrite calm_outside; auto.
  Qed.

  Lemma apart_no l s c : apart l s = true -> among c l = true -> among c s = false.
  Proof.
    unfold apart, among at 2. intros H Hc. apply existsb_exists in Hc as (y & Hy & E). apply Z.eqb_eq in E. subst y.
    rewrite forallb_forall in H. specialize (H _ Hy). apply negb_true_iff in H. exact H.
  Qed.
  Lemma clash_no p : forall q s, clash p q = true -> has q s = true -> has p s = false.
  Proof.
    induction p as [|u p IH]; intros [|v q] [|c s] H Hq; cbn in *; try discriminate; auto.
    apply andb_prop in Hq as [Hc Hq]. unfold clash in H. cbn in H. apply orb_prop in H as [H|H].
    - destruct (among c u) eqn:E; auto. rewrite (apart_no _ _ _ H E) in Hc. discriminate.
    - rewrite (IH _ _ H Hq). apply andb_false_r.
  Qed.
  Lemma clash_all {A} (f : A -> list (list Z)) q s l : forallb (fun a => clash (f a) q) l = true -> has q s = true ->
    existsb (fun a => has (f a) s) l = false.
  Proof.
    induction l as [|a l IH]; cbn; auto. intros H Hq. apply andb_prop in H as [H1 H2]. rewrite (clash_no _ _ _ H1 Hq). auto.
  Qed.

  Lemma opening_ok j g : nth_error (x_regions x) j = Some g -> leads x j g = true ->
    forall m st s, opens g s = true -> g_open g <> [] ->
    outside x (mkNow false m st) s = Some (Bytes (length (g_open g)) (g_first g) (Inside g 0)).
  Proof.
    intros Hj Hl m st s Ho Hne. assert (Hh : has (g_open g) s = true).
    { unfold opens in Ho. apply andb_prop in Ho as [Ho _]. eapply has_app; eauto. }
    unfold leads in Hl. dand. unfold outside. destruct s as [|c s]; [destruct (g_open g); [congruence|discriminate]|].
    rewrite (barred_none _ _ (clash_all (fun p => p) (g_open g) _ _ H Hh)). rewrite (find_none_of _ (x_words x)) by (apply (clash_all _ (g_open g)); auto).
    assert (Hsu : suits (mkNow false m st) g = true) by assumption.
    assert (Hf : find (fun g => suits (mkNow false m st) g && opens g (c :: s)) (x_regions x) = Some g).
    { clear -Hj H1 Hh Ho Hsu. rename H1 into H0. revert j Hj H0. induction (x_regions x) as [|h l IH]; intros [|j] Hj H0; cbn in *; try discriminate.
      - injection Hj as ->. rewrite Hsu, Ho. reflexivity.
      - apply andb_prop in H0 as [H1 H2].
        assert (opens h (c :: s) = false) as ->; [|rewrite andb_false_r; eauto].
        unfold opens. destruct (has (g_open h ++ g_ahead h) (c :: s)) eqn:E; auto. apply has_app in E.
        rewrite (clash_no _ _ _ H1 Hh) in E. discriminate. }
    rewrite Hf. reflexivity.
  Qed.

  (** ** Inside *)
  Lemma clean_step g b body rest : clean g (b :: body) rest = true ->
    find (fun p => has p ((b :: body) ++ rest)) (g_close g) = None
    /\ existsb (fun p => has p ((b :: body) ++ rest)) (g_never g) = false
    /\ g_nest g && has (g_open g) ((b :: body) ++ rest) = false
    /\ (b = 92 -> g_esc g = false /\ (g_escnl g = None \/ line_end (body ++ rest) = 0%nat))
    /\ clean g body rest = true.
  Proof.
    cbn [clean]. cbv zeta. intros H. dand.
    repeat match goal with H : negb _ = true |- _ => apply negb_true_iff in H end.
    split; [apply find_none_of; auto|]. split; [auto|]. split; [auto|]. split; [|auto].
    intros ->. change (92 =? 92) with true in *. cbn [negb orb] in *. dand.
    split; [apply negb_true_iff; auto|]. match goal with H : _ || _ = true |- _ => apply orb_prop in H as [H|H] end.
    - left. destruct (g_escnl g); [discriminate|auto].
    - right. apply Nat.eqb_eq. auto.
  Qed.

  Lemma body_next g b t rest : clean g (b :: t) rest = true ->
    body g 0 (b :: t ++ rest) =
    match line_end (b :: t ++ rest) with
    | S e =>
      match g_nl g with
      | Cut => Some (Ends (S e) Blank false Out)
      | Inner => Some (Ends (S e) Blank true (Inside g 0))
      | Deny => None
      end
    | O =>
      if b =? 13 then match g_nl g with Cut => Some (Bytes 1 Blank Out) | _ => None end
      else Some (Bytes 1 (if blank_byte b then Blank else g_kind g) (Inside g 0))
    end.
  Proof.
    intros H. apply clean_step in H as (H1 & H2 & H3 & H4 & H5). cbn [app] in *. unfold body. rewrite H1, H2, H3.
    destruct (b =? 92) eqn:E.
    - apply Z.eqb_eq in E. destruct (H4 E) as [He Hn]. rewrite He. cbn [andb].
      destruct Hn as [-> | ->]; [reflexivity|]. destruct (g_escnl g); reflexivity.
    - rewrite andb_false_r. reflexivity.
  Qed.

  (** Bytes of one line. *)
  Lemma run_ok g t : forall rest L p m1 m2 l, clean g t rest = true -> Forall plain_byte t ->
    (forall k st st', k = Blank \/ k = g_kind g -> mark k st (mkNow m1 m2 st') = mkNow m1 m2 st) ->
    (forall st, Acc x lang (Inside g 0) L (p + zlen t) (mkNow m1 m2 st) rest l) ->
    forall st, Acc x lang (Inside g 0) L p (mkNow m1 m2 st) (t ++ rest) l.
  Proof.
    induction t as [|b t IH]; intros rest L p m1 m2 l Hc Hp Hk H st.
    - specialize (H st). cbn in H. rewrite Z.add_0_r in H. exact H.
    - inversion Hp as [|? ? Hb Ht]; subst. cbn [app].
      eapply (Acc_b (Inside g 0) L p _ _ _ 1 (if blank_byte b then Blank else g_kind g) (Inside g 0)).
      + cbn [piece_of]. rewrite body_next by auto. unfold plain_byte, newline_byte in Hb. apply orb_false_iff in Hb as [Hb H13].
        cbn [line_end]. rewrite Hb, H13. reflexivity.
      + cbn [skipn]. rewrite Hk by (destruct (blank_byte b); auto). apply IH; auto; [apply clean_step in Hc; tauto|].
        replace (p + Z.of_nat 1 + zlen t) with (p + zlen (b :: t)) by (cbn [length]; lia). exact H.
  Qed.

  Lemma run_closed g t : forall rest, clean g t rest = true -> Forall plain_byte t -> Cl g 0 rest -> Cl g 0 (t ++ rest).
  Proof.
    induction t as [|b t IH]; intros rest Hc Hp H; [exact H|]. inversion Hp as [|? ? Hb Ht]; subst. cbn [app].
    apply (Cl_step g 0 (b :: t ++ rest) 1 (if blank_byte b then Blank else g_kind g) g 0).
    - left. rewrite body_next by auto. unfold plain_byte, newline_byte in Hb. apply orb_false_iff in Hb as [Hb H13].
      cbn [line_end]. rewrite Hb, H13. reflexivity.
    - cbn [skipn]. apply IH; auto. apply clean_step in Hc. tauto.
  Qed.

  (** ** A line comment, a string *)
  Lemma skip_app {A} (a b : list A) : skipn (length a) (a ++ b) = b.
  Proof. induction a; cbn; auto. Qed.
  Lemma skip_eq {A} n (a b : list A) : length a = n -> skipn n (a ++ b) = b.
  Proof. intros <-. apply skip_app. Qed.

  Lemma line_comment_ok j g o t rest l L p m st : nth_error (x_regions x) j = Some g -> leads x j g = true ->
    line_comment g = true -> length o = length (g_open g) -> g_open g <> [] ->
    has (g_open g ++ g_ahead g) (o ++ t ++ 10 :: rest) = true ->
    clean g t (10 :: rest) = true -> Forall plain_byte t ->
    let q := p + zlen o + zlen t + 1 in
    Acc x lang Out q q (fresh true) rest l ->
    Acc x lang Out L p (mkNow false m st) (o ++ t ++ 10 :: rest)
      (mkEvent lang "lcomment" L q :: l).
  Proof.
    intros Hj Hl Hg Ho Hne Hh Hc Hp q H.
    assert (Hop : opens g (o ++ t ++ 10 :: rest) = true).
    { unfold opens. rewrite Hh. destruct g as [? ? [] [] [] ? [] [] ? ? [] [] ?]; try discriminate. reflexivity. }
    eapply Acc_b; [cbn [piece_of]; eapply opening_ok; eauto|]. rewrite skip_eq by auto.
    assert (Hf : g_first g = Comment /\ g_kind g = Comment) by (destruct g as [? ? [] [] [] ? [] [] ? ? [] [] ?]; try discriminate; auto).
    destruct Hf as [-> Hk]. cbn [mark n_code]. apply run_ok; auto.
    - rewrite Hk. intros k st' st'' [-> | ->]; reflexivity.
    - intros st'. assert (E : piece_of x (Inside g 0) (mkNow false true st') (10 :: rest) = Some (Ends 1 Blank false Out))
        by (destruct g as [? ? [] [] [] ? [] [] ? ? [] [] ?]; try discriminate; reflexivity).
      pose proof (Acc_e (Inside g 0) L (p + Z.of_nat (length (g_open g)) + zlen t) (mkNow false true st') _ l _ _ _ _ E) as HE.
      replace (p + Z.of_nat (length (g_open g)) + zlen t + Z.of_nat 1) with q in HE by (unfold q; lia).
      exact (HE H).
  Qed.

  Lemma string_ok j g o t c rest l L p m st : nth_error (x_regions x) j = Some g -> leads x j g = true ->
    string_literal g = true -> nonempty g -> calm x 10 = true -> length o = length (g_open g) ->
    has (g_open g ++ g_ahead g) (o ++ t ++ c ++ 10 :: rest) = true ->
    clean g t (c ++ 10 :: rest) = true -> Forall plain_byte t ->
    (exists q, find (fun p => has p (c ++ 10 :: rest)) (g_close g) = Some q /\ length q = length c) ->
    let q := p + zlen o + zlen t + zlen c + 1 in
    Acc x lang Out q q (fresh true) rest l ->
    Acc x lang Out L p (mkNow false m st) (o ++ t ++ c ++ 10 :: rest) (mkEvent lang "lcode" L q :: l).
  Proof.
    intros Hj Hl Hg Hn Hnl Ho Hh Hc Hp (qc & Hcl & Hqc) q H.
    assert (Hb : body g 0 (c ++ 10 :: rest) = Some (Bytes (length c) (g_last g) Out)).
    { unfold body. destruct (c ++ 10 :: rest) as [|y ys] eqn:E; [destruct c; discriminate|]. rewrite Hcl, Hqc. reflexivity. }
    assert (Hclosed : Cl g 0 (t ++ c ++ 10 :: rest)) by (apply run_closed; auto; eapply Cl_out; eauto).
    assert (Hop : opens g (o ++ t ++ c ++ 10 :: rest) = true).
    { unfold opens. rewrite Hh. cbn [andb]. rewrite skip_eq by auto. cbv zeta.
      rewrite (Cl_length _ _ _ Hn Hclosed). apply orb_true_r. }
    assert (Hf : g_first g = Code /\ g_kind g = Code) by (destruct g as [? ? ? [] [] ? [] ? ? ? ? ? ?]; try discriminate; auto).
    destruct Hf as [Hf Hk]. destruct Hn as [Hn _].
    eapply Acc_b; [cbn [piece_of]; eapply opening_ok; eauto; intros E; rewrite E in Hn; cbn in Hn; congruence|]. rewrite skip_eq by auto.
    rewrite Hf. cbn [mark n_comment]. apply run_ok; auto.
    - rewrite Hk. intros k st' st'' [-> | ->]; reflexivity.
    - intros st'. eapply Acc_b; [exact Hb|]. rewrite skip_app.
      set (h := mark (g_last g) _ _). assert (Hm : n_code h = true) by (unfold h; destruct (g_last g); reflexivity).
      pose proof (newline_ok Hnl rest L (p + Z.of_nat (length (g_open g)) + zlen t + Z.of_nat (length c)) h l) as HE.
      assert (Hkn : kind_now h = Code) by (unfold kind_now; rewrite Hm; reflexivity). rewrite Hkn in HE.
      replace (p + Z.of_nat (length (g_open g)) + zlen t + Z.of_nat (length c) + 1) with q in HE by (unfold q; lia).
      exact (HE H).
  Qed.

  (** ** A comment of several lines *)
  Lemma comment_lines_close c : c <> [] -> Forall (fun b => newline_byte b = false /\ blank_byte b = false) c ->
    forall L p seen, comment_lines lang L p seen (c ++ [10]) = [mkEvent lang "lcomment" L (p + zlen c + 1)].
  Proof.
    intros Hne Hc.
    assert (Hs : forall L p, comment_lines lang L p true (c ++ [10]) = [mkEvent lang "lcomment" L (p + zlen c + 1)]).
    { clear Hne. induction Hc as [|b c [Hb Hb'] Hc IH]; intros L p.
      - cbn. rewrite Z.add_0_r. reflexivity.
      - cbn [app comment_lines]. unfold newline_byte in Hb. apply orb_false_iff in Hb as [Hb H13]. rewrite Hb, H13. cbn [andb orb].
        rewrite IH. cbn [length]. do 2 f_equal. lia. }
    intros L p seen. destruct c as [|b c]; [congruence|]. inversion Hc as [|? ? [Hb Hb'] Hc']; subst.
    specialize (Hs L p). cbn [app comment_lines] in *. unfold newline_byte in Hb. apply orb_false_iff in Hb as [Hb H13].
    rewrite Hb, H13 in *. cbn [andb orb] in *. rewrite Hb' in *. cbn [orb negb] in *. rewrite orb_true_r. exact Hs.
  Qed.
  Lemma comment_lines_open o : o <> [] -> Forall (fun b => newline_byte b = false /\ blank_byte b = false) o ->
    forall L p seen s, comment_lines lang L p seen (o ++ s) = comment_lines lang L (p + zlen o) true s.
  Proof.
    intros Hne Hc.
    assert (Hs : forall L p s, comment_lines lang L p true (o ++ s) = comment_lines lang L (p + zlen o) true s).
    { clear Hne. induction Hc as [|b c [Hb Hb'] Hc IH]; intros L p s.
      - cbn. rewrite Z.add_0_r. reflexivity.
      - cbn [app comment_lines]. unfold newline_byte in Hb. apply orb_false_iff in Hb as [Hb H13]. rewrite Hb, H13. cbn [andb orb].
        rewrite IH. cbn [length]. f_equal. lia. }
    intros L p seen s. destruct o as [|b c]; [congruence|]. inversion Hc as [|? ? [Hb Hb'] Hc']; subst.
    specialize (Hs L p s). cbn [app comment_lines] in *. unfold newline_byte in Hb. apply orb_false_iff in Hb as [Hb H13].
    rewrite Hb, H13 in *. cbn [andb orb] in *. rewrite Hb' in *. cbn [orb negb] in *. rewrite orb_true_r. exact Hs.
  Qed.
  Lemma no_ws_bytes pc : no_ws pc = true -> forall c s, has pc (c ++ s) = true -> length c = length pc ->
    Forall (fun b => newline_byte b = false /\ blank_byte b = false) c.
  Proof.
    induction pc as [|u pc IH]; intros Hws [|b c] s Hh Hlen; try discriminate; constructor.
    - change (no_ws (u :: pc)) with (apart [9; 10; 12; 13; 32] u && no_ws pc) in Hws.
      cbn in Hh. apply andb_prop in Hh as [Hh _]. apply andb_prop in Hws as [Hws _].
      assert (forall k, In k [9; 10; 12; 13; 32] -> b <> k).
      { intros k Hkin ->. unfold apart in Hws. rewrite forallb_forall in Hws. specialize (Hws _ Hkin). rewrite Hh in Hws. discriminate. }
      unfold newline_byte, blank_byte. split.
      + rewrite !(proj2 (Z.eqb_neq _ _)) by (apply H; cbn; tauto). reflexivity.
      + rewrite !(proj2 (Z.eqb_neq _ _)) by (apply H; cbn; tauto). reflexivity.
    - cbn in Hh, Hws, Hlen. apply andb_prop in Hh as [_ Hh]. apply andb_prop in Hws as [_ Hws]. eapply IH; eauto.
  Qed.

  Lemma lines_ok g c rest l : block_comment g = true -> calm x 10 = true -> c <> [] ->
    (exists q, find (fun p => has p (c ++ 10 :: rest)) (g_close g) = Some q /\ length q = length c) ->
    forall n t L p seen st, (length t <= n)%nat -> clean g t (c ++ 10 :: rest) = true ->
    let q := p + zlen t + zlen c + 1 in
    Acc x lang Out q q (fresh true) rest l ->
    Acc x lang (Inside g 0) L p (mkNow false seen st) (t ++ c ++ 10 :: rest)
      (comment_lines lang L p seen (t ++ c ++ [10]) ++ l).
  Proof.
    intros Hg Hnl Hne (pc & Hpc & Hlen). 
    assert (Hk : g_kind g = Comment /\ g_last g = Comment /\ g_nl g = Inner /\ forallb no_ws (g_close g) = true).
    { destruct g as [? ? ? [] [] [] [] ? [] [] ? [] ?]; try discriminate. cbn in *. apply andb_prop in Hg as [Hg _]. auto. }
    destruct Hk as (Hk & Hla & Hinner & Hws).
    assert (Hcw : Forall (fun b => newline_byte b = false /\ blank_byte b = false) c).
    { apply find_some in Hpc as [Hin Hh]. rewrite forallb_forall in Hws. eapply no_ws_bytes; eauto. }
    assert (Hbase : forall L p seen st, let q := p + zlen c + 1 in Acc x lang Out q q (fresh true) rest l ->
      Acc x lang (Inside g 0) L p (mkNow false seen st) (c ++ 10 :: rest) (comment_lines lang L p seen (c ++ [10]) ++ l)).
    { intros L p seen st q H. rewrite comment_lines_close by auto. cbn [app].
      eapply (Acc_b (Inside g 0) L p (mkNow false seen st) _ _ (length c) Comment Out).
      - cbn [piece_of]. unfold body. destruct (c ++ 10 :: rest) as [|y ys] eqn:E; [destruct c; discriminate|].
        rewrite Hpc, Hlen, Hla. reflexivity.
      - rewrite skip_app. exact (newline_ok Hnl rest L (p + zlen c) (mkNow false true _) l H). }
    induction n as [|n IH]; intros t L p seen st Ht Hc q H.
    - destruct t; [|cbn in Ht; lia]. cbn [app]. apply Hbase. replace (p + zlen c + 1) with q by (unfold q; cbn [length]; lia). exact H.
    - destruct t as [|b t].
      { cbn [app]. apply Hbase. replace (p + zlen c + 1) with q by (unfold q; cbn [length]; lia). exact H. }
      pose proof (body_next _ _ _ _ Hc) as Hb. rewrite Hinner in Hb. pose proof Hc as Hc'. apply clean_step in Hc'.
      destruct Hc' as (_ & _ & _ & _ & Hc'). cbn [app] in *. cbn [length] in Ht.
      (* the next byte, if it is after a carriage return *)
      assert (Hnext : b = 13 -> exists d u, t ++ c ++ 10 :: rest = d :: u /\
        ((d =? 10) = true -> exists t', t = 10 :: t')
        /\ match t ++ c ++ [10] with d :: _ => negb (d =? 10) | [] => false end = negb (d =? 10)).
      { intros _. destruct t as [|d t].
        - destruct c as [|d c]; [congruence|]. exists d. eexists. split; [reflexivity|]. split; [|reflexivity].
          intros E. inversion Hcw as [|? ? [Hd _] _]; subst. apply Z.eqb_eq in E. subst d. discriminate.
        - exists d. eexists. split; [reflexivity|]. split; [|reflexivity]. intros E. apply Z.eqb_eq in E. subst. eauto. }
      cbn [line_end comment_lines] in *.
      destruct ((b =? 10) || (b =? 12)) eqn:Eb.
      { (* a line end *)
        cbn [orb app]. eapply (Acc_e (Inside g 0) L p (mkNow false seen st)) in Hb; [|cbn [skipn]; eapply (IH t); [lia|exact Hc'|]].
        - cbn [mark] in Hb. change (p + Z.of_nat 1) with (p + 1) in Hb. destruct seen; exact Hb.
        - replace (p + Z.of_nat 1 + zlen t + zlen c + 1) with q by (unfold q; cbn [length]; lia). exact H. }
      destruct (b =? 13) eqn:E13.
      { apply Z.eqb_eq in E13. destruct (Hnext E13) as (d & u & E & Hd & Em). rewrite E in Hb. rewrite Em.
        destruct (d =? 10) eqn:E10; cbn [negb andb orb].
        + destruct (Hd eq_refl) as (t' & ->). cbn [app] in E. injection E as <- <-.
          replace (blank_byte b || true) with true by (destruct (blank_byte b); reflexivity). cbn [negb]. rewrite orb_false_r.
          cbn [app comment_lines]. cbn [Z.eqb Pos.eqb orb app].
          eapply (Acc_e (Inside g 0) L p (mkNow false seen st)) in Hb; [|cbn [skipn]; eapply (IH t'); [cbn [length] in Ht; lia|apply clean_step in Hc'; tauto|]].
          * cbn [mark] in Hb. replace (p + Z.of_nat 2) with (p + 1 + 1) in Hb by lia. destruct seen; exact Hb.
          * replace (p + Z.of_nat 2 + zlen t' + zlen c + 1) with q by (unfold q; cbn [length]; lia). exact H.
        + cbn [app]. eapply (Acc_e (Inside g 0) L p (mkNow false seen st)) in Hb; [|rewrite <- E; cbn [skipn]; eapply (IH t); [lia|exact Hc'|]].
          * cbn [mark] in Hb. rewrite <- E in Hb. change (p + Z.of_nat 1) with (p + 1) in Hb. destruct seen; exact Hb.
          * replace (p + Z.of_nat 1 + zlen t + zlen c + 1) with q by (unfold q; cbn [length]; lia). exact H. }
      cbn [andb orb]. rewrite orb_false_r. eapply (Acc_b (Inside g 0) L p (mkNow false seen st)); [exact Hb|].
      cbn [skipn]. assert (Hm : forall st', mark (if blank_byte b then Blank else g_kind g) st' (mkNow false seen st) = mkNow false (seen || negb (blank_byte b)) st').
      { intros st'. rewrite Hk. destruct (blank_byte b); cbn; rewrite ?orb_false_r, ?orb_true_r; reflexivity. }
      rewrite Hm. change (p + Z.of_nat 1) with (p + 1). apply IH; [lia|auto|].
      replace (p + 1 + zlen t + zlen c + 1) with q by (unfold q; cbn [length]; lia). exact H.
  Qed.

  Lemma block_ok j g o t c rest l L p seen st : nth_error (x_regions x) j = Some g -> leads x j g = true ->
    block_comment g = true -> g_open g <> [] -> no_ws (g_open g) = true -> calm x 10 = true -> c <> [] -> length o = length (g_open g) ->
    has (g_open g ++ g_ahead g) (o ++ t ++ c ++ 10 :: rest) = true ->
    clean g t (c ++ 10 :: rest) = true ->
    (exists q, find (fun p => has p (c ++ 10 :: rest)) (g_close g) = Some q /\ length q = length c) ->
    let q := p + zlen o + zlen t + zlen c + 1 in
    Acc x lang Out q q (fresh true) rest l ->
    Acc x lang Out L p (mkNow false seen st) (o ++ t ++ c ++ 10 :: rest) (comment_lines lang L p seen (o ++ t ++ c ++ [10]) ++ l).
  Proof.
    intros Hj Hl Hg Hne Hws Hnl Hcne Ho Hh Hc Hcl q H.
    assert (Hop : opens g (o ++ t ++ c ++ 10 :: rest) = true).
    { unfold opens. rewrite Hh. destruct g as [? ? ? [] [] [] [] ? [] [] ? [] ?]; try discriminate. reflexivity. }
    assert (Hf : g_first g = Comment) by (destruct g as [? ? ? [] [] [] [] ? [] [] ? [] ?]; try discriminate; reflexivity).
    apply has_app in Hh. 
    assert (How : Forall (fun b => newline_byte b = false /\ blank_byte b = false) o) by (eapply no_ws_bytes; eauto).
    assert (Hone : o <> []) by (intros ->; destruct (g_open g); cbn in Ho; congruence).
    rewrite comment_lines_open by auto.
    eapply Acc_b; [cbn [piece_of]; eapply opening_ok; eauto|]. rewrite skip_eq by auto. rewrite Hf. cbn [mark n_code].
    rewrite <- Ho. eapply lines_ok; eauto.
  Qed.

  (** ** Files that are accepted *)
  Hypothesis Hsane : sane x = true.
  Hypothesis Htidy : tidy x = true.
  Hypothesis Hsimple : simple x = true.

  Lemma fits_skip n : forall s, fits x s = true -> fits x (skipn n s) = true.
  Proof.
    induction n as [|n IH]; intros s H; [exact H|]. destruct s as [|c s]; [exact H|]. cbn [skipn]. cbn [fits] in H. dand. auto.
  Qed.

  Definition going (w : place) (s : list Z) : Prop :=
    match w with
    | Out => True
    | Inside g n => In g (x_regions x) /\ (g_nl g = Cut /\ g_never g = [] /\ g_esc g = false \/ Cl g n s)
    end.

  Lemma cut_body g n c s : g_nl g = Cut -> g_never g = [] -> g_esc g = false -> body g n (c :: s) <> None.
  Proof.
    intros H1 H2 H3. unfold body. rewrite H2, H1, H3. cbn [existsb andb].
    destruct (find _ _), n; try discriminate; destruct (_ && _); try discriminate;
      destruct (if c =? 92 then _ else _), (line_end s); try discriminate; destruct (line_end (c :: s)); try discriminate;
      destruct (c =? 13); discriminate.
  Qed.

  Lemma fits_ok n : forall w s L p h, (length s <= n)%nat -> fits x s = true -> going w s -> exists l, Acc x lang w L p h s l.
  Proof.
    induction n as [|n IH]; intros w s L p h Hn Hf Hw.
    - destruct s; [|cbn in Hn; lia]. eexists. exists 1%nat. cbn.
      destruct w as [|g d]; [reflexivity|]. destruct Hw as [_ [(Hc & _)|Hc]].
      + destruct g as [? ? ? ? ? ? [] ? ? ? ? ? ?]; try discriminate. reflexivity.
      + exfalso. apply (Cl_none g d []); auto.
    - destruct s as [|c s]; [apply (IH w []); auto; cbn; lia|].
      assert (Hk : known_place x w) by (destruct w; [exact I|apply Hw]).
      destruct (piece_of x w h (c :: s)) as [pc|] eqn:Ep.
      + pose proof (piece_pos _ Hsane Htidy _ _ _ _ Hk Ep) as Hpos.
        pose proof (piece_place _ _ _ _ _ Hk Ep) as Hk'.
        set (k := match pc with Bytes k _ _ | Ends k _ _ _ => k end).
        set (w' := match pc with Bytes _ _ w' | Ends _ _ _ w' => w' end).
        assert (Hgo : going w' (skipn k (c :: s))).
        { destruct w as [|g d].
          - cbn [piece_of] in Ep. unfold outside in Ep. destruct (existsb _ _); [discriminate|].
            destruct (find (fun p => has (fst (fst p)) _) _) as [[[? ?] ?]|]; [injection Ep as <-; exact I|].
            destruct (find (fun g => suits h g && opens g _) _) as [g|] eqn:Eg.
            + injection Ep as <-. unfold k, w'. cbn [going]. apply find_some in Eg as [Hin Ho]. apply andb_prop in Ho as [_ Ho]. split; auto.
              unfold simple in Hsimple. rewrite forallb_forall in Hsimple. pose proof (Hsimple _ Hin) as Hs.
              unfold opens in Ho. apply andb_prop in Ho as [Hh Ho].
              cbn [fits] in Hf. dand.
              match goal with H : forallb _ (x_regions x) = true |- _ => rewrite forallb_forall in H; specialize (H _ Hin); rewrite Hh, andb_true_r in H; apply negb_true_iff in H; rename H into Hlo end.
              rewrite Hlo, orb_false_r in Hs. unfold loose in Hlo.
              destruct (g_must g) eqn:Em.
              * right. exists (length (skipn (length (g_open g)) (c :: s))). exact Ho.
              * left. cbn [negb andb orb] in *. destruct (g_nl g); try discriminate. split; auto.
                apply andb_prop in Hs as [Hs1 Hs2]. split; [destruct (g_never g); [auto|discriminate]|]. apply negb_true_iff; auto.
            + destruct (line_end _); [destruct (c =? 11); [discriminate|]|]; injection Ep as <-; exact I.
          - cbn [piece_of] in Ep. pose proof (body_place _ _ _ _ Ep) as HB. destruct Hw as [Hin Hw].
            assert (HB' : w' = Out \/ exists d', w' = Inside g d') by (unfold w'; destruct pc; exact HB).
            destruct HB' as [E|(d' & E)]; rewrite E; [exact I|]. split; auto. destruct Hw as [Hw|Hw]; auto. right.
            apply (Cl_step g d (c :: s) k (match pc with Bytes _ kd _ | Ends _ kd _ _ => kd end) g d'); auto.
            unfold w', k in *. destruct pc as [k0 kd0 w0|k0 kd0 i0 w0]; subst w0; [left|right; exists i0]; exact Ep. }
        assert (Hl : (length (skipn k (c :: s)) <= n)%nat).
        { rewrite skipn_length. assert (0 < k)%nat by (unfold k; destruct pc; exact Hpos). cbn [length] in *. lia. }
        pose proof (fits_skip k _ Hf) as Hf'.
        destruct pc as [k0 kd0 w0|k0 kd0 i0 w0]; unfold k, w' in *.
        * destruct (IH w0 _ L (p + Z.of_nat k0) (mark kd0 (starts k0 (c :: s)) h) Hl Hf' Hgo) as (l & Hl'). exists l. eapply Acc_b; eauto.
        * destruct (IH w0 _ (p + Z.of_nat k0) (p + Z.of_nat k0) (fresh (starts k0 (c :: s))) Hl Hf' Hgo) as (l & Hl'). eexists. eapply Acc_e; eauto.
      + exfalso. destruct w as [|g d]; cbn [piece_of] in Ep.
        * cbn [fits] in Hf. dand. unfold outside in Ep.
          match goal with H : negb (existsb _ _) = true |- _ => apply negb_true_iff in H; rewrite (barred_none h _ H) in Ep end.
          destruct (find (fun p => has (fst (fst p)) _) _) as [[[? ?] ?]|]; [discriminate|].
          destruct (find (fun g => suits h g && opens g _) _); [discriminate|]. destruct (line_end _); [|discriminate].
          match goal with H : negb (c =? 11) = true |- _ => apply negb_true_iff in H; rewrite H in Ep end. discriminate.
        * destruct Hw as [_ [(H1 & H2 & H3)|Hw]]; [exact (cut_body _ _ _ _ H1 H2 H3 Ep)|exact (Cl_none _ _ _ Ep Hw)].
  Qed.
End Heads.

(** Enough fuel. *)
Lemma account_enough x lang : sane x = true -> tidy x = true ->
  forall f w L p h s l, known_place x w -> (length s < f)%nat -> Acc x lang w L p h s l -> account f x lang w L p h s = Some l.
Proof.
  intros Hs Ht. induction f as [|f IH]; intros w L p h s l Hw Hf (f' & H); [lia|].
  destruct f' as [|f']; [discriminate|]. cbn [account] in *. destruct s as [|c s]; [exact H|].
  destruct (piece_of x w h (c :: s)) as [pc|] eqn:Ep; [|discriminate].
  pose proof (piece_pos _ Hs Ht _ _ _ _ Hw Ep) as Hpos. pose proof (piece_place _ _ _ _ _ Hw Ep) as Hw'.
  destruct pc as [n k w'|n k i w'].
  - apply IH; auto; [rewrite skipn_length; cbn [length] in *; lia|]. exists f'. exact H.
  - destruct (account f' x lang _ _ _ _ _) as [l0|] eqn:E; [|discriminate].
    rewrite (IH w' _ _ _ _ l0); auto; [rewrite skipn_length; cbn [length] in *; lia|]. exists f'. exact E.
Qed.
Lemma lex_lines_Acc x lang text l : sane x = true -> tidy x = true ->
  (lex_lines x lang text = Some l <-> Acc x lang Out 0 0 (fresh true) text l).
Proof.
  intros Hs Ht. split; intros H.
  - eexists. exact H.
  - apply account_enough; auto. exact I.
Qed.
Lemma Acc_shift x lang w L p h s l d : Acc x lang w L p h s l -> Acc x lang w (L + d) (p + d) h s (map (shift d) l).
Proof. intros (f & H). exists f. rewrite account_shift, H. reflexivity. Qed.
